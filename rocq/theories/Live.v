(** When the payout instructions succeed: readiness of accounts, in terms of the world before the call. *)
From Verif Require Export Observe.

Definition frozen (w : world) (k : key) : bool :=
  match wdat w !! k with Some (DToken t) => t_frozen t | _ => false end.

(** [payer] is a plain system account with at least [n] lamports (nothing is required if [n] is 0). *)
Definition can_pay (w : world) (payer : key) (n : Z) : Prop :=
  n <= 0 \/ (wdat w !! payer = None /\ n <= lam w payer).

(** What a new token account may cost. *)
Definition ata_rent (E : env) (mintk : key) (tp : tprog) : Z := Z.max 1 (rent_min E (ata_space E mintk tp)).

(** [k] is the associated account of [owner] and can take [amount]: it exists, is not frozen and has room, or it does
    not exist and [payer] can pay for it; on top of that [payer] can pay [extra]. *)
Record can_receive (E : env) (w : world) (payer k owner mintk : key) (tp : tprog) (amount extra : Z) : Prop := {
  cr_addr : ata_address E owner mintk tp = Ok k;
  cr_open :
    (exists t, wdat w !! k = Some (DToken t) /\ t_owner t = owner /\ t_mint t = mintk /\ t_prog t = tp /\
       t_frozen t = false /\ t_amount t + amount <= U64_MAX /\ can_pay w payer extra) \/
    (wdat w !! k = None /\ 0 <= lam w k /\ payer <> k /\ can_pay w payer (ata_rent E mintk tp + extra)) }.

(** The rules of token [mintk] let [amount] pass from [from] to [to] now; a plain token's always do unless one
    of the two accounts has a guard of its own. *)
Definition token_allows (E : env) (w : world) (mintk from to : key) (amount : Z) : Prop :=
  withheld E mintk from to (wclock w) amount <> None.
Lemma plain_allows E w mintk from to amount : plain E mintk = true -> guarded E mintk from to (wclock w) = false ->
  token_allows E w mintk from to amount.
Proof. intros H Hg. unfold token_allows, withheld, mint_withholds. by rewrite Hg, H. Qed.

Lemma system_transfer_live from to n w : wdat w !! from = None -> n <= lam w from ->
  exists w', system_transfer from to n w = Ok w'.
Proof.
  intros Hd Hl. unfold system_transfer. rewrite Hd. rewrite (proj2 (Z.ltb_ge _ _) Hl). by eexists.
Qed.

Lemma init_account_live E payer k space d w extra : 0 <= extra -> wdat w !! k = None -> 0 <= lam w k -> payer <> k ->
  can_pay w payer (Z.max 1 (rent_min E space) + extra) ->
  exists w', init_account E payer k space d w = Ok w' /\ data_step w w' (<[k:=d]> (wdat w)) /\ can_pay w' payer extra.
Proof.
  intros Hx Hk Hl0 Hne Hp. destruct Hp as [Hp|[Hd Hl]]; [lia|].
  assert (exists w', init_account E payer k space d w = Ok w' /\ extra <= lam w' payer) as (w' & Hok & Hle).
  { unfold init_account. rewrite Hk. rewrite (proj2 (Z.eqb_neq _ _) Hne). cbn [negb ensure rbind].
    set (need := if lam w k =? 0 then _ else _).
    assert (need <= Z.max 1 (rent_min E space)) as Hn.
    { subst need. destruct (Z.eqb_spec (lam w k) 0); lia. }
    destruct (Z.ltb_spec 0 need) as [H0|H0].
    - destruct (system_transfer_live payer k need w Hd) as [w1 H1]; [lia|]. rewrite H1. cbn [rbind]. eexists. split; [done|].
      apply system_transfer_ok in H1 as (_ & _ & _ & Hm & _); [|lia]. rewrite lam_set_dat. rewrite (proj1 (Hm Hne)). lia.
    - cbn [rbind]. eexists. split; [done|]. rewrite lam_set_dat. lia. }
  exists w'. split; [done|]. apply init_account_ok in Hok as (_ & _ & Hds & _). split; [done|].
  right. split; [|done]. rewrite (ds_dat _ _ _ Hds). by rewrite lookup_insert_ne.
Qed.

Lemma init_ata_live E payer k owner mintk tp w m amount extra : 0 <= extra -> amount <= U64_MAX ->
  wdat w !! mintk = Some (DMint m) -> m_prog m = tp -> can_receive E w payer k owner mintk tp amount extra ->
  exists w1 t, init_ata_if_needed E payer k owner mintk tp w = Ok w1 /\ data_step w w1 (<[k:=DToken t]> (wdat w)) /\
    (wdat w !! k = Some (DToken t) \/ wdat w !! k = None) /\
    t_owner t = owner /\ t_mint t = mintk /\ t_prog t = tp /\ t_frozen t = false /\ t_amount t + amount <= U64_MAX /\
    can_pay w1 payer extra.
Proof.
  intros Hx Ham Hm Hmp [Ha [(t & Hk & Ho & Hmi & Hp & Hf & Hr & Hc)|(Hk & Hl & Hne & Hc)]].
  - exists w, t. split; [|split_and!; try done].
    + unfold init_ata_if_needed. rewrite Hk, Ho, Hmi, Hp, !Z.eqb_refl, Ha. unfold tprog_eqb. rewrite bool_decide_true by done.
      cbn [ensure rbind]. by rewrite Z.eqb_refl.
    + rewrite insert_id by done. apply data_step_refl.
    + by left.
  - destruct (init_account_live E payer k (ata_space E mintk tp) (DToken (TokAcc tp mintk owner 0 false)) w extra Hx Hk Hl Hne Hc) as (w1 & Hi & Hds & Hc1).
    exists w1, (TokAcc tp mintk owner 0 false). split; [|split_and!; try done; try (simpl; lia)].
    + unfold init_ata_if_needed, create_ata. rewrite Hk, Ha. cbn [rbind]. rewrite Z.eqb_refl. cbn [ensure rbind].
      rewrite (proj2 (load_mint_ok w mintk m) Hm). cbn [rbind]. unfold tprog_eqb. rewrite bool_decide_true by done. exact Hi.
    + by right.
Qed.

Lemma charge_fee_live fee_usd prog feed payer treas w fee :
  convert_usd_fee_to_lamports fee_usd prog feed w = Ok fee -> can_pay w payer fee ->
  exists w', charge_fee fee_usd prog feed payer treas w = Ok (w', fee).
Proof.
  intros Hf Hc. unfold charge_fee. rewrite Hf. cbn [rbind]. destruct (Z.ltb_spec 0 fee) as [H|H]; [|by eexists].
  destruct Hc as [?|[Hd Hl]]; [lia|]. destruct (system_transfer_live payer treas fee w Hd Hl) as [w' Hw]. rewrite Hw. by eexists.
Qed.

Lemma transfer_live E tp from to auth mintk amount w tf td m :
  wdat w !! from = Some (DToken tf) -> wdat w !! to = Some (DToken td) -> wdat w !! mintk = Some (DMint m) ->
  env_ok E -> 0 <= amount -> token_allows E w mintk from to amount -> t_prog tf = tp -> t_prog td = tp -> m_prog m = tp -> t_frozen tf = false -> t_frozen td = false ->
  amount <= t_amount tf -> t_mint tf = mintk -> t_mint td = mintk -> t_owner tf = auth -> t_amount td + amount <= U64_MAX ->
  exists w', transfer_checked E tp from to auth true mintk amount (m_decimals m) w = Ok w'.
Proof.
  intros Hf Ht Hm HE Hn Hal P1 P2 P3 F1 F2 Ha M1 M2 Ho Hr. unfold transfer_checked.
  rewrite (proj2 (load_token_ok w from tf) Hf), (proj2 (load_mint_ok w mintk m) Hm), (proj2 (load_token_ok w to td) Ht). cbn [rbind].
  rewrite P1, P2, P3, F1, F2, M1, M2, Ho, !Z.eqb_refl. unfold tprog_eqb. rewrite bool_decide_true by done.
  rewrite (proj2 (Z.leb_le _ _) Ha). cbn [ensure rbind andb negb of_option]. unfold token_allows in Hal.
  destruct (withheld E mintk from to (wclock w) amount) as [f|] eqn:Hw; [|done]. cbn [rbind of_option].
  assert (0 <= f).
  { unfold withheld, mint_withholds in Hw. destruct (guarded E mintk from to (wclock w)); [discriminate Hw|]. destruct (plain E mintk); [by injection Hw as <-|]. by destruct (eo_withheld E HE _ _ _ _ _ _ Hn Hw). }
  rewrite (proj2 (Z.leb_le (t_amount td + (amount - f)) U64_MAX)) by lia. cbn [ensure rbind].
  destruct (from =? to); by eexists.
Qed.

Lemma check_signer_live sg k : k ∈ sg -> check_signer sg k = Ok tt.
Proof. intros. unfold check_signer. by rewrite bool_decide_true. Qed.
Lemma check_address_live k x : k = x -> check_address k x = Ok tt.
Proof. intros ->. unfold check_address. by rewrite Z.eqb_refl. Qed.
Lemma check_seeds_bump_live E p s b k : create_program_address E p s b = Some k -> check_seeds_bump E p s b k = Ok tt.
Proof. intros H. unfold check_seeds_bump. by rewrite bool_decide_true. Qed.
Lemma check_ata_live E k t o m tp : t_prog t = tp -> t_owner t = o -> ata_address E o m tp = Ok k -> check_ata E k t o m tp = Ok tt.
Proof.
  intros <- <- H. unfold check_ata, tprog_eqb. rewrite bool_decide_true by done. rewrite Z.eqb_refl. cbn [ensure rbind].
  rewrite H. cbn [rbind]. by rewrite Z.eqb_refl.
Qed.

(** Creating accounts and updating the own record does not change what the oracle says. *)
Lemma oracle_after fee_usd prog feed w w1 dest t own d0 newd : data_step w w1 (<[dest:=DToken t]> (wdat w)) ->
  (wdat w !! dest = Some (DToken t) \/ wdat w !! dest = None) -> wdat w !! own = Some d0 ->
  (forall o r d, d0 <> DFeed o r d) -> (forall o r d, newd <> DFeed o r d) ->
  convert_usd_fee_to_lamports fee_usd prog feed (set_dat own newd w1) = convert_usd_fee_to_lamports fee_usd prog feed w.
Proof.
  intros [A B _ _] Hd Ho H0 H1. apply oracle_not_feed; [by rewrite wclock_set_dat|].
  intros. rewrite wdat_set_dat, A, !lookup_ins. repeat case_decide; subst; try done.
  - split; [intros [= ->]; exfalso; by eapply H1|rewrite Ho; intros [= ->]; exfalso; by eapply H0].
  - split; [done|]. destruct Hd as [->| ->]; done.
Qed.
