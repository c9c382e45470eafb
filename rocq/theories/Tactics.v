(** Inversion of monadic code and specifications of the primitives of World.v. *)
From Verif Require Export Merkle.

Lemma rbind_ok {A B} (x : res A) (f : A -> res B) b :
  rbind x f = Ok b -> exists a, x = Ok a /\ f a = Ok b.
Proof. destruct x; simpl; [eauto | discriminate]. Qed.

Lemma ensure_ok b e u : ensure b e = Ok u -> b = true.
Proof. destruct b; simpl; [done | discriminate]. Qed.

Lemma of_option_ok {A} (o : option A) e a : of_option o e = Ok a -> o = Some a.
Proof. destruct o; simpl; congruence. Qed.

(** [let! x := e in k = Ok r] ==> equations for each step. *)
Ltac inv1 H :=
  lazymatch type of H with
  | rbind ?e ?f = Ok ?b =>
      let a := fresh "x" in let He := fresh "He" in
      apply rbind_ok in H; destruct H as (a & He & H)
  end.
Ltac inv_ensure :=
  repeat match goal with
  | H : ensure _ _ = Ok ?u |- _ => apply ensure_ok in H; try clear u
  end.
Ltac inv_all H := repeat inv1 H; inv_ensure.

Ltac bools :=
  repeat match goal with
  | H : andb _ _ = true |- _ => apply andb_prop in H; destruct H
  | H : bool_decide _ = true |- _ => apply bool_decide_eq_true in H
  | H : (_ =? _) = true |- _ => apply Z.eqb_eq in H
  | H : (_ =? _) = false |- _ => apply Z.eqb_neq in H
  | H : (_ <=? _) = true |- _ => apply Z.leb_le in H
  | H : (_ <=? _) = false |- _ => apply Z.leb_gt in H
  | H : (_ <? _) = true |- _ => apply Z.ltb_lt in H
  | H : (_ <? _) = false |- _ => apply Z.ltb_ge in H
  | H : negb _ = true |- _ => apply negb_true_iff in H
  | H : negb _ = false |- _ => apply negb_false_iff in H
  | H : tprog_eqb _ _ = true |- _ => apply bool_decide_eq_true in H
  end.

(** ** Checked arithmetic *)
Lemma u64_add_ok x y z : u64_add x y = Ok z -> z = x + y /\ x + y <= U64_MAX.
Proof. unfold u64_add. case_match; intros [= <-]; bools; lia. Qed.
Lemma u64_sub_ok x y z : u64_sub x y = Ok z -> z = x - y /\ y <= x.
Proof. unfold u64_sub. case_match; intros [= <-]; bools; lia. Qed.
Lemma u64_mul_ok x y z : u64_mul x y = Ok z -> z = x * y /\ x * y <= U64_MAX.
Proof. unfold u64_mul. case_match; intros [= <-]; bools; lia. Qed.
Lemma u64_add_le x y : x + y <= U64_MAX -> u64_add x y = Ok (x + y).
Proof. intros. unfold u64_add. by rewrite (proj2 (Z.leb_le _ _)). Qed.
Lemma u64_sub_le x y : y <= x -> u64_sub x y = Ok (x - y).
Proof. intros. unfold u64_sub. by rewrite (proj2 (Z.leb_le _ _)). Qed.
Lemma u64_mul_le x y : x * y <= U64_MAX -> u64_mul x y = Ok (x * y).
Proof. intros. unfold u64_mul. by rewrite (proj2 (Z.leb_le _ _)). Qed.
Lemma u128_mul_le x y : x * y <= U128_MAX -> u128_mul x y = Ok (x * y).
Proof. intros. unfold u128_mul. by rewrite (proj2 (Z.leb_le _ _)). Qed.
Lemma u128_div_ne x y : y <> 0 -> u128_div x y = Ok (x / y).
Proof. intros. unfold u128_div. by rewrite (proj2 (Z.eqb_neq _ _)). Qed.
Lemma u64_div_ne x y : y <> 0 -> u64_div x y = Ok (x / y).
Proof. intros. unfold u64_div. by rewrite (proj2 (Z.eqb_neq _ _)). Qed.
Lemma as_u64_small x : 0 <= x <= U64_MAX -> as_u64 x = x.
Proof. unfold as_u64, U64_MAX. intros. apply Z.mod_small. lia. Qed.
Lemma as_u64_range x : 0 <= as_u64 x <= U64_MAX.
Proof. unfold as_u64, U64_MAX. pose proof (Z.mod_pos_bound x 18446744073709551616). lia. Qed.

(** ** Loads *)
Lemma load_stream_ok w k s : load_stream w k = Ok s <-> wdat w !! k = Some (DStream s).
Proof. unfold load_stream. repeat case_match; split; congruence. Qed.
Lemma load_lockup_treasury_ok w k s : load_lockup_treasury w k = Ok s <-> wdat w !! k = Some (DLockupTreasury s).
Proof. unfold load_lockup_treasury. repeat case_match; split; congruence. Qed.
Lemma load_merkle_treasury_ok w k s : load_merkle_treasury w k = Ok s <-> wdat w !! k = Some (DMerkleTreasury s).
Proof. unfold load_merkle_treasury. repeat case_match; split; congruence. Qed.
Lemma load_nft_collection_ok w k s : load_nft_collection w k = Ok s <-> wdat w !! k = Some (DNftCollection s).
Proof. unfold load_nft_collection. repeat case_match; split; congruence. Qed.
Lemma load_campaign_ok w k s : load_campaign w k = Ok s <-> wdat w !! k = Some (DCampaign s).
Proof. unfold load_campaign. repeat case_match; split; congruence. Qed.
Lemma load_mint_ok w k s : load_mint w k = Ok s <-> wdat w !! k = Some (DMint s).
Proof. unfold load_mint. repeat case_match; split; congruence. Qed.
Lemma load_token_ok w k s : load_token w k = Ok s <-> wdat w !! k = Some (DToken s).
Proof. unfold load_token. repeat case_match; split; congruence. Qed.
Lemma check_signer_ok sg k u : check_signer sg k = Ok u -> k ∈ sg.
Proof. unfold check_signer. intros H%ensure_ok. by bools. Qed.
Lemma check_address_ok k x u : check_address k x = Ok u -> k = x.
Proof. unfold check_address. intros H%ensure_ok. by bools. Qed.
Lemma check_seeds_bump_ok E p s b k u : check_seeds_bump E p s b k = Ok u -> create_program_address E p s b = Some k.
Proof. unfold check_seeds_bump. intros H%ensure_ok. by bools. Qed.
Lemma check_seeds_ok E p s k b : check_seeds E p s k = Ok b <-> find_program_address E p s = Ok (k, b).
Proof.
  unfold check_seeds. split.
  - intros H. inv_all H. bools. injection H as <-. rewrite He. by destruct x; simpl in *; subst.
  - intros ->. simpl. by rewrite Z.eqb_refl.
Qed.
Lemma check_ata_ok E k t o m tp u : check_ata E k t o m tp = Ok u ->
  t_prog t = tp /\ t_owner t = o /\ ata_address E o m tp = Ok k.
Proof. unfold check_ata. intros H. inv_all H. bools. subst. auto. Qed.

Ltac loads :=
  repeat match goal with
  | H : load_stream _ _ = Ok _ |- _ => apply load_stream_ok in H
  | H : load_lockup_treasury _ _ = Ok _ |- _ => apply load_lockup_treasury_ok in H
  | H : load_merkle_treasury _ _ = Ok _ |- _ => apply load_merkle_treasury_ok in H
  | H : load_nft_collection _ _ = Ok _ |- _ => apply load_nft_collection_ok in H
  | H : load_campaign _ _ = Ok _ |- _ => apply load_campaign_ok in H
  | H : load_mint _ _ = Ok _ |- _ => apply load_mint_ok in H
  | H : load_token _ _ = Ok _ |- _ => apply load_token_ok in H
  | H : check_signer _ _ = Ok _ |- _ => apply check_signer_ok in H
  | H : check_address _ _ = Ok _ |- _ => apply check_address_ok in H
  | H : check_seeds_bump _ _ _ _ _ = Ok _ |- _ => apply check_seeds_bump_ok in H
  | H : check_seeds _ _ _ _ = Ok _ |- _ => apply check_seeds_ok in H
  | H : check_ata _ _ _ _ _ _ = Ok _ |- _ => apply check_ata_ok in H; destruct H as (? & ? & ?)
  | H : u64_add _ _ = Ok _ |- _ => apply u64_add_ok in H; destruct H
  | H : u64_sub _ _ = Ok _ |- _ => apply u64_sub_ok in H; destruct H
  end.

(** ** Sums over the world *)
Definition tok_of (m : key) (d : adata) : Z :=
  match d with DToken t => if t_mint t =? m then t_amount t else 0 | _ => 0 end.
(** Sum of all balances of token [m]. *)
Definition tok_total (w : world) (m : key) : Z :=
  map_fold (fun _ d acc => tok_of m d + acc) 0 (wdat w).
(** Sum of all lamports. *)
Definition lam_total (w : world) : Z := map_fold (fun _ z acc => z + acc) 0 (wlam w).

Definition tok_sum (D : gmap key adata) (m : key) : Z := map_fold (fun _ d acc => tok_of m d + acc) 0 D.
Definition opt_tok (m : key) (o : option adata) : Z := match o with Some d => tok_of m d | None => 0 end.

Lemma tok_sum_insert_new D m k d : D !! k = None -> tok_sum (<[k:=d]> D) m = tok_of m d + tok_sum D m.
Proof.
  intros. unfold tok_sum.
  rewrite (map_fold_insert_L (fun _ d acc => tok_of m d + acc)); [done| |done]. intros. lia.
Qed.
Lemma tok_sum_insert D m k d :
  tok_sum (<[k:=d]> D) m = tok_sum D m - opt_tok m (D !! k) + tok_of m d.
Proof.
  destruct (D !! k) as [d0|] eqn:Hk; simpl.
  - rewrite <-(insert_delete D k d0 Hk) at 2. rewrite <-insert_delete_insert.
    rewrite !tok_sum_insert_new by apply lookup_delete. lia.
  - rewrite tok_sum_insert_new by done. lia.
Qed.
Lemma tok_total_sum w m : tok_total w m = tok_sum (wdat w) m.
Proof. done. Qed.

Definition lam_sum (L : gmap key Z) : Z := map_fold (fun _ z acc => z + acc) 0 L.
Lemma lam_sum_insert_new L k z : L !! k = None -> lam_sum (<[k:=z]> L) = z + lam_sum L.
Proof.
  intros. unfold lam_sum.
  rewrite (map_fold_insert_L (fun _ z acc => z + acc)); [done| |done]. intros. lia.
Qed.
Lemma lam_sum_insert L k z : lam_sum (<[k:=z]> L) = lam_sum L - default 0 (L !! k) + z.
Proof.
  destruct (L !! k) as [z0|] eqn:Hk; simpl.
  - rewrite <-(insert_delete L k z0 Hk) at 2. rewrite <-insert_delete_insert.
    rewrite !lam_sum_insert_new by apply lookup_delete. lia.
  - rewrite lam_sum_insert_new by done. lia.
Qed.

(** ** World accessors *)
Lemma lam_set_lam_eq k z w : lam (set_lam k z w) k = z.
Proof. unfold lam, set_lam. simpl. by rewrite lookup_insert. Qed.
Lemma lam_set_lam_ne k k' z w : k <> k' -> lam (set_lam k z w) k' = lam w k'.
Proof. intros. unfold lam, set_lam. simpl. by rewrite lookup_insert_ne. Qed.
Lemma lam_set_dat k d w k' : lam (set_dat k d w) k' = lam w k'.
Proof. done. Qed.
Lemma wdat_set_lam k z w : wdat (set_lam k z w) = wdat w.
Proof. done. Qed.
Lemma wdat_set_dat k d w : wdat (set_dat k d w) = <[k:=d]> (wdat w).
Proof. done. Qed.
Lemma wclock_set_dat k d w : wclock (set_dat k d w) = wclock w.
Proof. done. Qed.
Lemma wclock_set_lam k z w : wclock (set_lam k z w) = wclock w.
Proof. done. Qed.
Lemma lam_total_set_dat k d w : lam_total (set_dat k d w) = lam_total w.
Proof. done. Qed.
Lemma lam_total_set_lam k z w : lam_total (set_lam k z w) = lam_total w - lam w k + z.
Proof. unfold lam_total, lam, set_lam. simpl. apply lam_sum_insert. Qed.

(** ** Lamport moves: data and clock untouched, total kept, only a data-less account loses. *)
Record lam_step (w w' : world) : Prop := {
  ls_dat : wdat w' = wdat w;
  ls_clock : wclock w' = wclock w;
  ls_total : lam_total w' = lam_total w;
  ls_mono : forall k, wdat w !! k <> None -> lam w k <= lam w' k }.

Lemma system_transfer_ok from to n w w' : 0 <= n -> system_transfer from to n w = Ok w' ->
  lam_step w w' /\ wdat w !! from = None /\ n <= lam w from /\
  (from <> to -> lam w' from = lam w from - n /\ lam w' to = lam w to + n) /\
  (from = to -> lam w' from = lam w from) /\
  (forall k, k <> from -> k <> to -> lam w' k = lam w k) .
Proof.
  unfold system_transfer. intros Hn. destruct (wdat w !! from) eqn:Hf; [discriminate|].
  destruct (lam w from <? n) eqn:Hl; intros [= <-]; bools.
  destruct (decide (from = to)) as [->|Hne].
  - split_and!; try done; try lia.
    + split; try done.
      * rewrite !lam_total_set_lam, !lam_set_lam_eq. lia.
      * intros k Hk. destruct (decide (k = to)) as [->|]; [congruence|].
        rewrite !lam_set_lam_ne by done. lia.
    + rewrite !lam_set_lam_eq. lia.
    + intros. rewrite !lam_set_lam_ne by done. done.
  - split_and!; try done; try lia.
    + split; try done.
      * rewrite !lam_total_set_lam. rewrite (lam_set_lam_ne from to) by done. lia.
      * intros k Hk. destruct (decide (k = from)) as [->|]; [congruence|].
        destruct (decide (k = to)) as [->|].
        -- rewrite lam_set_lam_eq. rewrite (lam_set_lam_ne from to) by done. lia.
        -- rewrite !lam_set_lam_ne by done. lia.
    + intros _. rewrite lam_set_lam_eq. rewrite (lam_set_lam_ne to from) by done.
      rewrite lam_set_lam_eq. rewrite (lam_set_lam_ne from to) by done. lia.
    + intros. rewrite !lam_set_lam_ne by done. done.
Qed.

Lemma lam_step_refl w : lam_step w w.
Proof. split; done || intros; lia. Qed.

(** [data_step w w' D]: the data of [w'] is [D], everything else as in a lamport move. *)
Record data_step (w w' : world) (D : gmap key adata) : Prop := {
  ds_dat : wdat w' = D;
  ds_clock : wclock w' = wclock w;
  ds_total : lam_total w' = lam_total w;
  ds_mono : forall k, wdat w !! k <> None -> lam w k <= lam w' k }.

Lemma data_step_refl w : data_step w w (wdat w).
Proof. split; done || intros; lia. Qed.

Lemma data_step_trans w w1 w2 D1 D2 :
  data_step w w1 D1 -> data_step w1 w2 D2 ->
  (forall k, wdat w !! k <> None -> D1 !! k <> None) -> data_step w w2 D2.
Proof.
  intros [A1 B1 C1 M1] [A2 B2 C2 M2] Hd. split; try congruence.
  intros k Hk. transitivity (lam w1 k); [by apply M1|]. apply M2. rewrite A1. by apply Hd.
Qed.

Lemma init_account_ok E payer k space d w w' :
  init_account E payer k space d w = Ok w' ->
  wdat w !! k = None /\ payer <> k /\ data_step w w' (<[k:=d]> (wdat w)) /\
  rent_min E space <= lam w' k.
Proof.
  unfold init_account. destruct (wdat w !! k) eqn:Hk; [discriminate|]. intros H. inv_all H. bools.
  injection H as <-.
  assert (payer <> k) by done.
  set (need := if lam w k =? 0 then _ else _) in *.
  destruct (0 <? need) eqn:Hn; bools.
  - apply system_transfer_ok in He0 as ([A B C D] & Hp & Hle & Hm & _ & Ho); [|lia].
    split_and!; try done.
    + split; try done. by rewrite wdat_set_dat, A.
    + rewrite lam_set_dat. destruct Hm as [_ ->]; [done|]. subst need.
      destruct (lam w k =? 0) eqn:?; bools; lia.
  - injection He0 as <-. split_and!; try done.
    rewrite lam_set_dat. subst need. destruct (lam w k =? 0) eqn:?; bools; lia.
Qed.

Lemma fund_account_ok payer k n d w w' :
  fund_account payer k n d w = Ok w' ->
  wdat w !! k = None /\ payer <> k /\ data_step w w' (<[k:=d]> (wdat w)) /\ lam w' k = lam w k + Z.max 0 n.
Proof.
  unfold fund_account. destruct (wdat w !! k) eqn:Hk; [discriminate|]. intros H. inv_all H. bools.
  injection H as <-. assert (payer <> k) by done. destruct (0 <? n) eqn:Hn; bools.
  - apply system_transfer_ok in He0 as ([A B C D] & Hp & Hle & Hm & _ & Ho); [|lia].
    split_and!; try done.
    + split; try done. by rewrite wdat_set_dat, A.
    + rewrite lam_set_dat. destruct Hm as [_ ->]; [done|]. lia.
  - injection He0 as <-. split_and!; try done. rewrite lam_set_dat. lia.
Qed.

Lemma create_ata_ok E payer k owner mintk tp w w' :
  create_ata E payer k owner mintk tp w = Ok w' ->
  wdat w !! k = None /\ ata_address E owner mintk tp = Ok k /\ payer <> k /\
  (exists m, wdat w !! mintk = Some (DMint m) /\ m_prog m = tp) /\
  data_step w w' (<[k:=DToken (TokAcc tp mintk owner 0 false)]> (wdat w)).
Proof.
  unfold create_ata. intros H. inv_all H. loads. bools.
  apply init_account_ok in H as (? & ? & ? & ?). subst. split_and!; eauto.
Qed.

Lemma create_mint_ok E payer k tp dec au fr w w' :
  create_mint E payer k tp dec au fr w = Ok w' ->
  wdat w !! k = None /\ payer <> k /\
  data_step w w' (<[k:=DMint (Mint tp 0 dec (Some au) (Some fr))]> (wdat w)).
Proof. unfold create_mint. intros (? & ? & ? & ?)%init_account_ok. auto. Qed.

Lemma init_ata_if_needed_ok E payer k owner mintk tp w w' :
  init_ata_if_needed E payer k owner mintk tp w = Ok w' ->
  ata_address E owner mintk tp = Ok k /\
  exists t, t_mint t = mintk /\ t_owner t = owner /\ t_prog t = tp /\
   ((wdat w !! k = None /\ payer <> k /\ t = TokAcc tp mintk owner 0 false /\
     (exists m, wdat w !! mintk = Some (DMint m) /\ m_prog m = tp))
    \/ (wdat w !! k = Some (DToken t) /\ w' = w)) /\
   data_step w w' (<[k:=DToken t]> (wdat w)).
Proof.
  unfold init_ata_if_needed. destruct (wdat w !! k) as [d|] eqn:Hk.
  - destruct d; try discriminate. intros H. inv_all H. bools. injection H as <-. subst.
    split; [done|]. exists t. split_and!; auto. rewrite insert_id by done. apply data_step_refl.
  - intros H%create_ata_ok. destruct H as (? & ? & ? & ? & ?). split; [done|].
    exists (TokAcc tp mintk owner 0 false). split_and!; auto.
Qed.

Lemma received_plain E m from to t n : plain E m = true -> received E m from to t n = n.
Proof. unfold received, withheld, mint_withholds. intros ->. destruct (guarded E m from to t); simpl; lia. Qed.

Lemma transfer_checked_ok E tp from to auth signed mintk amount dec w w' :
  transfer_checked E tp from to auth signed mintk amount dec w = Ok w' ->
  exists tf td m,
    wdat w !! from = Some (DToken tf) /\ wdat w !! to = Some (DToken td) /\
    wdat w !! mintk = Some (DMint m) /\
    t_prog tf = tp /\ t_prog td = tp /\ m_prog m = tp /\ t_mint tf = mintk /\ t_mint td = mintk /\
    t_frozen tf = false /\ t_frozen td = false /\
    t_owner tf = auth /\ signed = true /\ amount <= t_amount tf /\ dec = m_decimals m /\
    ((from = to /\ w' = w) \/
     (from <> to /\ t_amount td + received E mintk from to (wclock w) amount <= U64_MAX /\
      w' = set_dat to (DToken (with_amount td (t_amount td + received E mintk from to (wclock w) amount)))
         (set_dat from (DToken (with_amount tf (t_amount tf - amount))) w))).
Proof.
  unfold transfer_checked. intros H. inv_all H. loads. bools. subst. unfold received.
  destruct (withheld E (t_mint x) from to (wclock w) amount) as [fee|]; [|discriminate]. cbn in He8. injection He8 as <-. cbn [default].
  exists x, x1, x0. destruct (from =? to) eqn:Hft; bools.
  - injection H as <-. split_and!; auto.
  - inv_all H. bools. injection H as <-. split_and!; auto.
Qed.

(** ... and no guard of the two accounts refused it. *)
Lemma transfer_checked_unguarded E tp from to auth signed mintk amount dec w w' :
  transfer_checked E tp from to auth signed mintk amount dec w = Ok w' -> guarded E mintk from to (wclock w) = false.
Proof.
  unfold transfer_checked, withheld. intros H. inv_all H. destruct (guarded E mintk from to (wclock w)); [|done].
  match goal with H : of_option None _ = Ok _ |- _ => discriminate H end.
Qed.

Lemma mint_to_ok tp mintk to auth signed amount w w' :
  mint_to tp mintk to auth signed amount w = Ok w' ->
  exists m t, wdat w !! mintk = Some (DMint m) /\ wdat w !! to = Some (DToken t) /\
    t_mint t = mintk /\ m_authority m = Some auth /\ signed = true /\ m_prog m = tp /\ t_prog t = tp /\
    t_frozen t = false /\
    m_supply m + amount <= U64_MAX /\ t_amount t + amount <= U64_MAX /\
    w' = set_dat to (DToken (with_amount t (t_amount t + amount)))
       (set_dat mintk (DMint (Mint (m_prog m) (m_supply m + amount) (m_decimals m)
                                   (m_authority m) (m_freeze m))) w).
Proof.
  unfold mint_to. intros H. inv_all H. loads. bools. injection H as <-. subst.
  exists x, x0. split_and!; auto.
Qed.

Lemma create_metadata_ok E payer md mintk auth signed name sym uri size w w' :
  create_metadata E payer md mintk auth signed name sym uri size w = Ok w' ->
  wdat w !! md = None /\ payer <> md /\ (exists b, find_program_address E PMetadata (metadata_seeds E mintk) = Ok (md, b)) /\
  data_step w w' (<[md:=DMetadata mintk auth name None size false]> (wdat w)).
Proof.
  unfold create_metadata. intros H. inv_all H. loads. bools.
  apply fund_account_ok in H as (? & ? & ? & ?). split_and!; eauto.
Qed.

Lemma create_master_edition_ok E payer ed md mintk auth signed w w' :
  create_master_edition E payer ed md mintk auth signed w = Ok w' ->
  exists m, wdat w !! mintk = Some (DMint m) /\ wdat w !! ed = None /\ payer <> ed /\
   (exists b, find_program_address E PMetadata (edition_seeds E mintk) = Ok (ed, b)) /\
   m_supply m = 1 /\ (m_decimals m = 0 /\ md_accepts E (m_prog m) = true) /\
   data_step w w' (<[mintk := DMint (Mint (m_prog m) (m_supply m) (m_decimals m) (Some ed)
        (match m_freeze m with Some _ => Some ed | None => None end))]> (<[ed:=DEdition mintk]> (wdat w))).
Proof.
  unfold create_master_edition. intros H. inv_all H. loads. bools. injection H as <-.
  apply init_account_ok in He4 as (? & ? & [A B C D] & ?). exists x. split_and!; eauto.
  split; try done. by rewrite wdat_set_dat, A.
Qed.

Lemma set_and_verify_collection_ok E md auth collm collmd colled signed w w' :
  set_and_verify_collection E md auth collm collmd colled signed w = Ok w' ->
  exists m ua nm sz sgn cm cua cnm ccol csz csgn,
    wdat w !! md = Some (DMetadata m ua nm None sz sgn) /\
    wdat w !! collmd = Some (DMetadata cm cua cnm ccol (Some csz) csgn) /\
    wdat w !! colled = Some (DEdition collm) /\ cm = collm /\ signed = true /\
    w' = set_dat collmd (DMetadata cm cua cnm ccol (Some (csz + 1)) csgn)
           (set_dat md (DMetadata m ua nm (Some collm) sz sgn) w).
Proof.
  unfold set_and_verify_collection. repeat (case_match; try discriminate).
  intros Hx. inv_all Hx. bools. injection Hx as <-. subst. eauto 20.
Qed.

Lemma sign_metadata_ok md signed w w' :
  sign_metadata md signed w = Ok w' ->
  exists m ua nm c sz b, wdat w !! md = Some (DMetadata m ua nm c sz b) /\ signed = true /\
    w' = set_dat md (DMetadata m ua nm c sz true) w.
Proof.
  unfold sign_metadata. repeat (case_match; try discriminate).
  intros Hx. inv_all Hx. injection Hx as <-. subst. eauto 20.
Qed.

Lemma fee_nonneg fee r d now f : 0 <= fee -> convert_fee fee r d now = Ok f -> 0 <= f.
Proof.
  intros Hf. unfold convert_fee. destruct (fee =? 0); [intros [= <-]; lia|].
  destruct r as [r| |]; [|intros [= <-]; lia|intros H; discriminate H].
  destruct (r_answer r <=? 0); [intros [= <-]; lia|].
  destruct (_ <? _); [intros [= <-]; lia|]. destruct (_ <? _); [intros [= <-]; lia|].
  destruct d as [d| |]; [|intros [= <-]; lia|intros H; discriminate H]. unfold fee_from_price.
  destruct (d =? 8); intros H; inv_all H.
  - unfold u64_div in H. case_match; [discriminate|]. injection H as <-. bools.
    apply u64_mul_ok in He as [-> ?].
    pose proof (as_u64_range (r_answer r)). apply Z.div_pos; [unfold LAMPORTS_PER_SOL; lia | lia].
  - injection H as <-. apply as_u64_range.
Qed.

Lemma charge_fee_ok fee prog feed signer treas w w' f :
  charge_fee fee prog feed signer treas w = Ok (w', f) ->
  lam_step w w' /\ convert_usd_fee_to_lamports fee prog feed w = Ok f /\
  ((f <= 0 /\ w' = w) \/ (0 < f /\ system_transfer signer treas f w = Ok w')).
Proof.
  unfold charge_fee. intros H. inv_all H. destruct (0 <? x) eqn:Hx; bools.
  - inv_all H. injection H as <- <-. split_and!; auto.
    by apply system_transfer_ok in He0 as (? & _); [|lia].
  - injection H as <- <-. split_and!; auto. apply lam_step_refl.
Qed.

Lemma move_lamports_ok from to n w w' : move_lamports from to n w = Ok w' ->
  wdat w' = wdat w /\ wclock w' = wclock w /\ lam_total w' = lam_total w /\ n <= lam w from /\
  (from <> to -> lam w' from = lam w from - n /\ lam w' to = lam w to + n) /\
  (from = to -> lam w' from = lam w from) /\
  (forall k, k <> from -> k <> to -> lam w' k = lam w k).
Proof.
  unfold move_lamports. intros H. inv_all H. loads. injection H as <-. subst.
  destruct (decide (from = to)) as [->|Hne].
  - split_and!; try done; try lia.
    + rewrite !lam_total_set_lam, !lam_set_lam_eq. lia.
    + rewrite !lam_set_lam_eq. lia.
    + intros. rewrite !lam_set_lam_ne by done. done.
  - split_and!; try done; try lia.
    + rewrite !lam_total_set_lam. rewrite (lam_set_lam_ne from to) by done. lia.
    + intros _. rewrite lam_set_lam_eq. rewrite (lam_set_lam_ne to from) by done.
      rewrite lam_set_lam_eq. rewrite (lam_set_lam_ne from to) by done. lia.
    + intros. rewrite !lam_set_lam_ne by done. done.
Qed.

(** Keeps unification from unrolling the 255-step bump search. *)
Global Opaque find_program_address ata_address create_program_address nft_name.
