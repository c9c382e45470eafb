(** What every successful instruction of one program leaves alone. *)
From Verif Require Export History InversionCreate.

(** ** Derived addresses *)
Section pda.
Local Transparent find_program_address ata_address create_program_address.
Lemma cpa_pda E p s b k : env_ok E -> create_program_address E p s b = Some k -> pda_of E p k = true /\ key_ok k.
Proof.
  intros HE. unfold create_program_address. case_match; [|discriminate]. by apply (eo_pda _ HE).
Qed.
Lemma find_bump_cpa E p s n k b : find_bump E p s n = Some (k, b) ->
  create_program_address E p s b = Some k /\ 0 < b <= Z.of_nat n.
Proof.
  induction n as [|n IH]; [discriminate|]. cbn [find_bump].
  destruct (create_program_address E p s (Z.of_nat (S n))) eqn:Hc.
  - intros [= <- <-]. split; [done|lia].
  - intros [? ?]%IH. split; [done|lia].
Qed.
Lemma fpa_cpa E p s k b : find_program_address E p s = Ok (k, b) ->
  create_program_address E p s b = Some k /\ 0 < b <= 255.
Proof. unfold find_program_address. intros H%of_option_ok. by apply find_bump_cpa in H. Qed.
Lemma fpa_pda E p s k b : env_ok E -> find_program_address E p s = Ok (k, b) -> pda_of E p k = true /\ key_ok k.
Proof. intros HE [H _]%fpa_cpa. by eapply cpa_pda. Qed.
Lemma ata_fpa E o m tp k : ata_address E o m tp = Ok k ->
  exists b, find_program_address E PAssocToken (ata_seeds E o m tp) = Ok (k, b).
Proof. unfold ata_address. intros H. inv_all H. injection H as <-. destruct x. eauto. Qed.
Lemma ata_pda E o m tp k : env_ok E -> ata_address E o m tp = Ok k -> pda_of E PAssocToken k = true /\ key_ok k.
Proof. intros HE [b H]%ata_fpa. by eapply fpa_pda. Qed.
End pda.

Lemma pda_ne E p q k : env_ok E -> pda_of E p k = true -> p <> q -> pda_of E q k = false.
Proof. intros HE H Hne. apply not_true_is_false. intros H'. by apply Hne, (eo_disjoint _ HE p q k). Qed.

Lemma received_range E m from to t n : env_ok E -> 0 <= n -> 0 <= received E m from to t n <= n.
Proof.
  intros HE Hn. unfold received, withheld, mint_withholds. destruct (guarded E m _ _ _); simpl; [lia|]. destruct (plain E m); simpl; [lia|].
  destruct (ext_transfer E m from to t n) as [f|] eqn:Hf; simpl; [|lia].
  pose proof (eo_withheld _ HE _ _ _ _ _ _ Hn Hf). lia.
Qed.

(** ** The frame of an instruction of program [p] spending with authority [S] *)

Definition is_metadata (d : adata) : bool := match d with DMetadata _ _ _ _ _ _ => true | _ => false end.
Definition is_token (d : adata) : bool := match d with DToken _ => true | _ => false end.

Definition same_account (t t' : tokacc) : Prop :=
  t_prog t' = t_prog t /\ t_mint t' = t_mint t /\ t_owner t' = t_owner t /\ t_frozen t' = t_frozen t.

Record frame (E : env) (p : program) (S : key) (w w' : world) : Prop := {
  fr_clock : wclock w' = wclock w;
  fr_total : lam_total w' = lam_total w;
  fr_other : forall k d, wdat w !! k = Some d -> owner_prog d <> Some p -> is_token d = false ->
    is_metadata d = false -> wdat w' !! k = Some d;
  fr_tokens : forall k t, wdat w !! k = Some (DToken t) ->
    exists t', wdat w' !! k = Some (DToken t') /\ same_account t t' /\ (t_owner t <> S -> t_amount t <= t_amount t');
  fr_own : forall k d, wdat w !! k = Some d -> owner_prog d = Some p ->
    exists d', wdat w' !! k = Some d' /\ owner_prog d' = Some p;
  fr_back : forall k d, wdat w' !! k = Some d -> owner_prog d <> None -> owner_prog d <> Some p -> wdat w !! k = Some d;
  fr_new : forall k, wdat w !! k = None -> wdat w' !! k <> None ->
    pda_of E p k = true \/ pda_of E PAssocToken k = true \/ pda_of E PMetadata k = true;
  fr_lam : forall k d, wdat w !! k = Some d -> owner_prog d <> Some p -> lam w k <= lam w' k;
  fr_sane : token_sane E w -> token_sane E w' }.

Lemma frame_untouched E p q S w w' : env_ok E -> frame E p S w w' ->
  p <> q -> (q = PLockup \/ q = PMerkle) -> pda_of E q S = false -> untouched E q w w'.
Proof.
  intros HE F Hpq Hq HS. split.
  - intros k d Hk Ho. split.
    + apply (fr_other _ _ _ _ _ F); [done|congruence| |]; destruct d; try done; destruct Hq; subst; discriminate.
    + apply (fr_lam _ _ _ _ _ F k d); [done|congruence].
  - intros k d Hk Ho. apply (fr_back _ _ _ _ _ F); congruence.
  - intros k Hp Hn. destruct (wdat w' !! k) eqn:Hk; [|done]. exfalso.
    destruct (fr_new _ _ _ _ _ F k Hn ltac:(congruence)) as [H|[H|H]];
      pose proof (eo_disjoint _ HE _ _ _ H Hp); destruct Hq; congruence.
  - intros k t Hk Hp _. destruct (fr_tokens _ _ _ _ _ F k t Hk) as (t' & ? & (? & ? & ? & ?) & Ha).
    exists t'. split_and!; try done. intros _. apply Ha. intros Heq. congruence.
Qed.

Lemma frame_sealed E p S w w' : frame E p S w w' -> sealed_mints_kept E w w'.
Proof.
  intros F k m a Hk Ha _ _. exists m. split_and!; try done.
  apply (fr_other _ _ _ _ _ F); [done| |done|done]. simpl. congruence.
Qed.

(** ** Sums *)
Lemma total_balance_sum w m : total_balance w m = tok_sum (wdat w) m.
Proof. done. Qed.

Lemma tok_of_non_token m d : is_token d = false -> tok_of m d = 0.
Proof. by destruct d. Qed.
Lemma tok_of_with_amount m t n : tok_of m (DToken (with_amount t n)) = if t_mint t =? m then n else 0.
Proof. done. Qed.

Lemma payout_tok_sum D own d0 newd vault dest vt dt amount got m :
  D !! own = Some d0 -> is_token d0 = false -> is_token newd = false ->
  D !! vault = Some (DToken vt) ->
  (D !! dest = Some (DToken dt) \/ (D !! dest = None /\ t_amount dt = 0)) ->
  t_mint vt = t_mint dt -> (t_mint dt = m -> got = amount) ->
  tok_sum (payout D own newd vault dest vt dt amount got) m = tok_sum D m.
Proof.
  intros Ho H0 H1 Hv Hd Hm Hgot. unfold payout.
  assert (own <> vault) by (intros ->; rewrite Ho in Hv; by injection Hv as ->).
  assert (own <> dest) by (intros ->; rewrite Ho in Hd; destruct Hd as [Hd|[Hd _]]; [by injection Hd as ->|done]).
  case_decide as Hvd.
  - rewrite tok_sum_insert, Ho. simpl. rewrite !tok_of_non_token by done. lia.
  - rewrite !tok_sum_insert. rewrite lookup_insert_ne by done. rewrite lookup_insert_ne by done.
    rewrite lookup_insert_ne by done. rewrite Ho, Hv. simpl opt_tok. rewrite !tok_of_non_token by done.
    rewrite !tok_of_with_amount. unfold tok_of. rewrite Hm.
    destruct Hd as [->|[-> Hz]]; simpl; rewrite ?Hz; destruct (t_mint dt =? m) eqn:Hmm; bools; try rewrite Hgot by done; lia.
Qed.

(** ** Payouts *)

Lemma payout_lookup_own D own newd vault dest vt dt amount got :
  own <> vault -> own <> dest -> payout D own newd vault dest vt dt amount got !! own = Some newd.
Proof.
  intros. unfold payout. case_decide; [apply lookup_insert|].
  rewrite !lookup_insert_ne by done. apply lookup_insert.
Qed.
Lemma payout_lookup_other D own newd vault dest vt dt amount got i :
  i <> own -> i <> vault -> i <> dest -> payout D own newd vault dest vt dt amount got !! i = D !! i.
Proof. intros. unfold payout. case_decide; rewrite !lookup_insert_ne by done; done. Qed.
Lemma payout_lookup_vault D own newd vault dest vt dt amount got :
  vault <> dest -> own <> vault ->
  payout D own newd vault dest vt dt amount got !! vault = Some (DToken (with_amount vt (t_amount vt - amount))).
Proof.
  intros. unfold payout. rewrite decide_False by done. rewrite lookup_insert_ne by done. apply lookup_insert.
Qed.
Lemma payout_lookup_dest D own newd vault dest vt dt amount got :
  vault <> dest ->
  payout D own newd vault dest vt dt amount got !! dest = Some (DToken (with_amount dt (t_amount dt + got))).
Proof. intros. unfold payout. rewrite decide_False by done. apply lookup_insert. Qed.
Lemma payout_lookup_same D own newd vault vt dt amount got :
  own <> vault -> payout D own newd vault vault vt dt amount got !! vault = D !! vault.
Proof. intros. unfold payout. rewrite decide_True by done. by rewrite lookup_insert_ne. Qed.

Lemma with_amount_same t n : same_account t (with_amount t n).
Proof. done. Qed.
Lemma same_account_refl t : same_account t t.
Proof. done. Qed.

(** [D]: [w]'s data plus freshly created non-token accounts of [p]. *)
Lemma payout_frame E p w w' D own d0 newd vault dest vt dt amount tp mintk owner auth :
  env_ok E ->
  payout_facts E w D own newd vault dest vt dt amount tp mintk owner auth w' ->
  (forall k, wdat w !! k <> None -> D !! k = wdat w !! k) ->
  (forall k d, wdat w !! k = None -> D !! k = Some d -> owner_prog d = Some p /\ pda_of E p k = true /\ k <> dest) ->
  (forall m, tok_sum D m = tok_sum (wdat w) m) ->
  wdat w !! own = Some d0 -> owner_prog d0 = Some p -> owner_prog newd = Some p ->
  wdat w !! vault = Some (DToken vt) -> 0 <= amount ->
  frame E p auth w w'.
Proof.
  intros HE [Hdb Hdo Hdm Hdp Hda Hvo Hvm Hvp Ham Hroom [Hdat Hclk Htot Hlam]] HD HDn HDs Ho Hop Hnp Hv Hn.
  assert (Hdest : D !! dest = Some (DToken dt) \/ (D !! dest = None /\ t_amount dt = 0)).
  { destruct Hdb as [Hdb|[Hdb Hdt]].
    - left. rewrite HD; [done|congruence].
    - right. split; [|by rewrite Hdt]. destruct (D !! dest) eqn:Hd; [|done].
      by destruct (HDn _ _ Hdb Hd) as (_ & _ & []). }
  assert (Hnt0 : is_token d0 = false) by (by destruct d0).
  assert (Hntn : is_token newd = false) by (by destruct newd).
  assert (HDo : D !! own = Some d0) by (rewrite HD; congruence).
  assert (HDv : D !! vault = Some (DToken vt)) by (rewrite HD; congruence).
  assert (own <> vault) by (intros ->; rewrite Ho in Hv; by injection Hv as ->).
  assert (own <> dest) by (intros ->; destruct Hdest as [?|[? _]]; [|congruence]; rewrite HDo in *; by simplify_eq).
  pose proof (received_range E mintk vault dest (wclock w) amount HE Hn) as Hrec.
  assert (Hsum : forall m, plain E m = true -> tok_sum (wdat w') m = tok_sum (wdat w) m).
  { intros m Hpl. rewrite Hdat, <-HDs. eapply payout_tok_sum; eauto; [congruence|].
    intros Hmm. apply received_plain. congruence. }
  assert (Htok : forall k t, wdat w !! k = Some (DToken t) ->
    exists t', wdat w' !! k = Some (DToken t') /\ same_account t t' /\ (t_owner t <> auth -> t_amount t <= t_amount t')).
  { intros k t Hk. rewrite Hdat. destruct (decide (vault = dest)) as [->|Hvd].
    - exists t. split; [|split; [done|lia]].
      assert (k <> own) by (intros ->; rewrite Ho in Hk; by simplify_eq).
      destruct (decide (k = dest)) as [->|]; [rewrite payout_lookup_same by done|rewrite payout_lookup_other by done];
        rewrite HD; congruence.
    - destruct (decide (k = vault)) as [->|]; [|destruct (decide (k = dest)) as [->|]].
      + rewrite payout_lookup_vault by done. rewrite Hv in Hk. injection Hk as <-.
        eexists. split; [done|]. split; [done|]. intros. congruence.
      + rewrite payout_lookup_dest by done. destruct Hdest as [Hd|[Hd _]]; rewrite HD in Hd by congruence; [|congruence].
        rewrite Hk in Hd. injection Hd as <-. eexists. split; [done|]. split; [done|]. simpl. lia.
      + assert (k <> own) by (intros ->; rewrite Ho in Hk; by simplify_eq).
        rewrite payout_lookup_other by done. exists t. split; [|split; [done|lia]]. rewrite HD; congruence. }
  (* every account of the new world *)
  assert (Hback : forall k d, wdat w' !! k = Some d ->
    (k = own /\ d = newd) \/ (exists t, d = DToken t /\ (k = vault \/ k = dest)) \/
    (wdat w !! k = Some d) \/ (wdat w !! k = None /\ D !! k = Some d)).
  { intros k d. rewrite Hdat. unfold payout. case_decide.
    - intros [[<- <-]|[? Hk]]%lookup_insert_Some; [by left|]. right; right.
      destruct (wdat w !! k) eqn:E1; [left|by right]. rewrite HD in Hk by congruence. congruence.
    - intros [[<- <-]|[? Hk]]%lookup_insert_Some; [eauto 10|].
      apply lookup_insert_Some in Hk as [[<- <-]|[? Hk]]; [eauto 10|].
      apply lookup_insert_Some in Hk as [[<- <-]|[? Hk]]; [by left|]. right; right.
      destruct (wdat w !! k) eqn:E1; [left|by right]. rewrite HD in Hk by congruence. congruence. }
  split; try done.
  - intros k d Hk Hod Ht Hm. rewrite Hdat.
    assert (k <> own) by (intros ->; congruence).
    assert (k <> vault) by (intros ->; rewrite Hv in Hk; by simplify_eq).
    assert (k <> dest).
    { intros ->. destruct Hdest as [Hd|[Hd _]]; rewrite HD in Hd by congruence; rewrite Hk in Hd; by simplify_eq. }
    rewrite payout_lookup_other by done. rewrite HD; congruence.
  - intros k d Hk Hod. destruct (decide (k = own)) as [->|].
    + exists newd. rewrite Hdat. split; [by apply payout_lookup_own|done].
    + assert (k <> vault) by (intros ->; rewrite Hv in Hk; by simplify_eq).
      assert (k <> dest).
      { intros ->. destruct Hdest as [Hd|[Hd _]]; rewrite HD in Hd by congruence; rewrite Hk in Hd; by simplify_eq. }
      exists d. rewrite Hdat, payout_lookup_other by done. split; [|done]. rewrite HD; congruence.
  - intros k d Hk Hn1 Hn2. destruct (Hback _ _ Hk) as [[-> ->]|[(t & -> & _)|[?|[? HDk]]]]; try done.
    destruct (HDn _ _ ltac:(eassumption) HDk) as (? & _ & _). congruence.
  - intros k Hk Hk'. destruct (wdat w' !! k) as [d|] eqn:Hkd; [|done].
    destruct (Hback _ _ Hkd) as [[-> ->]|[(t & -> & [->| ->])|[?|[? HDk]]]]; try congruence.
    + right; left. by apply (ata_pda E owner mintk tp).
    + left. by destruct (HDn _ _ Hk HDk) as (_ & ? & _).
  - intros k d Hk _. apply Hlam. congruence.
  - intros [Hr Hs]. split.
    + intros k t Hk. destruct (Hback _ _ Hk) as [[_ Hx]|[(t' & [= <-] & Hkk)|[Hk0|[Hk0 HDk]]]]; [rewrite <-Hx in Hnp; discriminate|..].
      * rewrite Hdat in Hk. pose proof (Hr _ _ Hv). destruct (decide (vault = dest)) as [->|].
        -- assert (k = dest) as -> by (by destruct Hkk). rewrite payout_lookup_same in Hk by done.
           rewrite HDv in Hk. injection Hk as <-. lia.
        -- destruct Hkk as [->| ->].
           ++ rewrite payout_lookup_vault in Hk by done. injection Hk as <-. simpl. lia.
           ++ rewrite payout_lookup_dest in Hk by done. injection Hk as <-. simpl.
              specialize (Hroom ltac:(done)). split; [|lia].
              destruct Hdb as [Hd|[_ Hd]]; [|rewrite Hd; simpl; lia]. pose proof (Hr _ _ Hd). lia.
      * by apply Hr in Hk0.
      * by destruct (HDn _ _ Hk0 HDk) as (? & _).
    + intros m Hm. rewrite total_balance_sum, Hsum by (by apply (eo_nft _ HE)). transitivity (supply w m); [by apply Hs|].
      unfold supply. destruct (wdat w !! m) as [dm|] eqn:Hdm'.
      * destruct dm; try (destruct (wdat w' !! m) as [d'|] eqn:Hd'; [|lia]; destruct d'; try lia;
          destruct (Hback _ _ Hd') as [[-> Hx]|[(t' & ? & _)|[?|[? _]]]]; try congruence;
          rewrite <-Hx in Hnp; discriminate).
        assert (wdat w' !! m = Some (DMint m0)) as ->; [|lia].
        assert (m <> own) by (intros ->; rewrite Ho in Hdm'; injection Hdm' as ->; discriminate).
        assert (m <> vault) by (intros ->; congruence).
        assert (m <> dest) by (intros ->; destruct Hdest as [Hd|[Hd _]]; rewrite HD in Hd by congruence; congruence).
        rewrite Hdat, payout_lookup_other by done. rewrite HD; congruence.
      * destruct (wdat w' !! m) as [d'|] eqn:Hd'; [|lia]. destruct d'; try lia.
        destruct (Hback _ _ Hd') as [[-> Hx]|[(t' & ? & _)|[?|[? HDk]]]]; try congruence.
        destruct (HDn _ _ Hdm' HDk) as (? & _). done.
Qed.
