(** The frame of every instruction. *)
From Verif Require Export Frame StreamMath.

Definition change_ok (E : env) (p : program) (S : key) (k : key) (old : option adata) (d : adata) : Prop :=
  match old with
  | None => (owner_prog d = None \/ owner_prog d = Some p) /\
            (pda_of E p k = true \/ pda_of E PAssocToken k = true \/ pda_of E PMetadata k = true)
  | Some d0 =>
      (owner_prog d0 = Some p /\ owner_prog d = Some p) \/
      (is_metadata d0 = true /\ is_metadata d = true) \/
      (exists t t', d0 = DToken t /\ d = DToken t' /\ same_account t t' /\ (t_owner t <> S -> t_amount t <= t_amount t'))
  end.

Lemma frame_of E p S w w' :
  (p = PLockup \/ p = PMerkle) ->
  wclock w' = wclock w -> lam_total w' = lam_total w ->
  (forall k, wdat w' !! k = wdat w !! k \/ exists d, wdat w' !! k = Some d /\ change_ok E p S k (wdat w !! k) d) ->
  (forall k d, wdat w !! k = Some d -> owner_prog d <> Some p -> lam w k <= lam w' k) ->
  (token_sane E w -> token_sane E w') ->
  frame E p S w w'.
Proof.
  intros Hp Hc Ht Hcls Hl Hsane. split; try done.
  - intros k d Hk Ho Htk Hm. destruct (Hcls k) as [->|(d' & Hd' & Hch)]; [done|].
    rewrite Hk in Hch. simpl in Hch. destruct Hch as [[? _]|[[? _]|(t & t' & -> & _)]]; congruence || done.
  - intros k t Hk. destruct (Hcls k) as [->|(d' & Hd' & Hch)].
    + exists t. split; [done|]. split; [done|]. lia.
    + rewrite Hk in Hch. simpl in Hch. destruct Hch as [[? _]|[[? _]|(t0 & t' & [= <-] & -> & ? & ?)]]; try done.
      eauto.
  - intros k d Hk Ho. destruct (Hcls k) as [->|(d' & Hd' & Hch)]; [eauto|].
    rewrite Hk in Hch. simpl in Hch. destruct Hch as [[? ?]|[[? ?]|(t & t' & -> & _)]]; eauto; [destruct d; done | done].
  - intros k d Hk Hn1 Hn2. destruct (Hcls k) as [<-|(d' & Hd' & Hch)]; [done|].
    rewrite Hk in Hd'. injection Hd' as <-. destruct (wdat w !! k) as [d0|]; simpl in Hch.
    + destruct Hch as [[? ?]|[[? ?]|(t & t' & -> & -> & _)]]; try congruence; [destruct d; done | done].
    + destruct Hch as [[?|?] _]; congruence.
  - intros k Hk Hk'. destruct (Hcls k) as [Heq|(d' & Hd' & Hch)]; [congruence|].
    rewrite Hk in Hch. by destruct Hch.
Qed.

(** ** Sanity after creating accounts with explicit data *)
Lemma supply_other w w' m : (forall mt, wdat w' !! m = Some (DMint mt) <-> wdat w !! m = Some (DMint mt)) ->
  supply w' m = supply w m.
Proof.
  intros H. unfold supply.
  destruct (wdat w' !! m) as [d'|] eqn:E1; destruct (wdat w !! m) as [d|] eqn:E2;
  try (destruct d'); try (destruct d); try done;
  try (pose proof (proj1 (H _) eq_refl); congruence); try (pose proof (proj2 (H _) eq_refl); congruence).
Qed.

(** ** Merkle Instant: initialize, create_campaign, collect_fees *)

Lemma tok_sum_insert_zero D m k d : is_token d = false -> (forall t, D !! k <> Some (DToken t)) -> tok_sum (<[k:=d]> D) m = tok_sum D m.
Proof.
  intros Hd HD. rewrite tok_sum_insert, tok_of_non_token by done.
  destruct (D !! k) as [d0|]; simpl; [|lia]. rewrite tok_of_non_token; [lia|]. destruct d0; try done. by destruct (HD t).
Qed.
Lemma tok_sum_insert_token D m k t : D !! k = None ->
  tok_sum (<[k:=DToken t]> D) m = tok_sum D m + (if t_mint t =? m then t_amount t else 0).
Proof. intros Hk. rewrite tok_sum_insert, Hk. simpl. lia. Qed.

Lemma m_initialize_frame E sg i t f p c w w' evs : env_ok E ->
  m_initialize E sg i t f p c w = Ok (w', evs) -> frame E PMerkle i w w'.
Proof.
  intros HE (b & Hsg & Ht & Hn & Hne & [Hd Hc Htot Hl] & _ & _)%m_initialize_inv.
  apply frame_of; auto.
  - intros k. rewrite Hd. destruct (decide (k = t)) as [->|]; [|left; by rewrite lookup_insert_ne].
    right. rewrite lookup_insert. eexists; split; [done|]. rewrite Hn. simpl. split; [by right|]. left.
    by apply fpa_pda in Ht as [? _].
  - intros k d Hk _. apply Hl. congruence.
  - intros [Hr Hs]. split.
    + intros k t0. rewrite Hd. intros [[_ ?]|[? ?]]%lookup_insert_Some; [done|eauto].
    + intros m Hm. rewrite total_balance_sum, Hd, tok_sum_insert_zero by (done || intros; congruence).
      rewrite (supply_other w w'); [by apply Hs|].
      intros mt. rewrite Hd. destruct (decide (m = t)) as [->|]; [rewrite lookup_insert; naive_solver|by rewrite lookup_insert_ne].
Qed.

Lemma create_campaign_frame E sg a g w w' evs : env_ok E ->
  create_campaign E sg a g w = Ok (w', evs) -> frame E PMerkle (na_creator a) w w'.
Proof.
  intros HE (m & b & Hsg & Hm & Hmp & Hc & Hn1 & Hn2 & Hne & Hv & Hsz & [Hd Hck Htot Hl] & _)%create_campaign_inv.
  apply frame_of; auto.
  - intros k. rewrite Hd. destruct (decide (k = na_campaign a)) as [->|].
    { right. rewrite lookup_insert. eexists; split; [done|]. rewrite Hn1. simpl. split; [by right|]. left.
      by apply fpa_pda in Hc as [? _]. }
    rewrite lookup_insert_ne by done. destruct (decide (k = na_vault a)) as [->|]; [|left; by rewrite lookup_insert_ne].
    right. rewrite lookup_insert. eexists; split; [done|]. rewrite Hn2. simpl. split; [by left|]. right; left.
    by apply ata_pda in Hv as [? _].
  - intros k d Hk _. apply Hl. congruence.
  - intros [Hr Hs]. split.
    + intros k t0. rewrite Hd. intros [[_ ?]|[? [[_ [= <-]]|[? ?]]%lookup_insert_Some]]%lookup_insert_Some; [done| |eauto].
      unfold U64_MAX; simpl; lia.
    + intros mk Hmk. rewrite total_balance_sum, Hd, tok_sum_insert_zero; [|done|].
      2:{ intros t. rewrite lookup_insert_ne by done. congruence. }
      rewrite tok_sum_insert_token by done. simpl.
      rewrite (supply_other w w'). { pose proof (Hs mk Hmk). rewrite total_balance_sum in *. destruct (na_mint a =? mk); lia. }
      intros mt. rewrite Hd. destruct (decide (mk = na_campaign a)) as [->|]; [rewrite lookup_insert; naive_solver|].
      rewrite lookup_insert_ne by done. destruct (decide (mk = na_vault a)) as [->|]; [rewrite lookup_insert; naive_solver|].
      by rewrite lookup_insert_ne.
Qed.

Lemma fees_frame E p from to n w w' S d : (p = PLockup \/ p = PMerkle) -> wdat w !! from = Some d -> owner_prog d = Some p -> 0 <= n ->
  move_lamports from to n w = Ok w' -> frame E p S w w'.
Proof.
  intros Hp Hf Ho Hn0 (Hd & Hc & Ht & Hn & Hne & Heq & Hoth)%move_lamports_ok.
  apply frame_of; auto.
  - intros k. left. by rewrite Hd.
  - intros k d' Hk Hod. destruct (decide (k = from)) as [->|]; [congruence|].
    destruct (decide (k = to)) as [->|]; [|rewrite Hoth by done; lia].
    destruct Hne as [_ ->]; [congruence|]. lia.
  - intros [Hr Hs]. split; rewrite ?Hd; auto.
    intros m Hm. rewrite total_balance_sum, Hd. unfold supply. rewrite Hd. by apply Hs.
Qed.

(** ** Payments *)

Lemma claim_frame E sg a index amount proof w w' evs : env_ok E -> 0 <= amount ->
  claim E sg a index amount proof w = Ok (w', evs) -> frame E PMerkle (la_campaign a) w w'.
Proof.
  intros HE Ha (tr & m & c & vt & dt & fee & F)%claim_inv.
  eapply (payout_frame E PMerkle w w'); [done|apply (lf_pay _ _ _ _ _ _ _ _ _ _ _ _ _ _ _ F)|..].
  - intros k Hk. rewrite lookup_insert_ne; [done|]. intros <-. by apply Hk, (lf_receipt _ _ _ _ _ _ _ _ _ _ _ _ _ _ _ F).
  - intros k d Hk. intros [[<- <-]|[? ?]]%lookup_insert_Some; [|congruence]. split; [done|].
    destruct (lf_receipt_addr _ _ _ _ _ _ _ _ _ _ _ _ _ _ _ F) as [b Hb].
    apply fpa_pda in Hb as [? _]; [|done]. split; [done|]. apply (lf_receipt_dest _ _ _ _ _ _ _ _ _ _ _ _ _ _ _ F).
  - intros mk. apply tok_sum_insert_zero; [done|]. rewrite (lf_receipt _ _ _ _ _ _ _ _ _ _ _ _ _ _ _ F). done.
  - apply (lf_campaign _ _ _ _ _ _ _ _ _ _ _ _ _ _ _ F).
  - done.
  - done.
  - apply (lf_vault _ _ _ _ _ _ _ _ _ _ _ _ _ _ _ F).
  - done.
Qed.

Lemma clawback_frame E sg a amount w w' evs : env_ok E -> 0 <= amount ->
  clawback E sg a amount w = Ok (w', evs) -> frame E PMerkle (ba_campaign a) w w'.
Proof.
  intros HE Ha (m & c & vt & dt & F)%clawback_inv.
  eapply (payout_frame E PMerkle w w'); [done|apply (bf_pay _ _ _ _ _ _ _ _ _ _ _ F)|..]; try done.
  - congruence.
  - apply (bf_campaign _ _ _ _ _ _ _ _ _ _ _ F).
  - done.
  - apply (bf_vault _ _ _ _ _ _ _ _ _ _ _ F).
Qed.

Lemma withdraw_frame E sg a amount w w' evs : env_ok E -> 0 <= amount ->
  withdraw E sg a amount w = Ok (w', evs) -> frame E PLockup (wa_stream a) w w'.
Proof.
  intros HE Ha (tr & m & nt & s & s' & vt & dt & fee & wd & F)%withdraw_inv.
  eapply (payout_frame E PLockup w w'); [done|apply (wf_pay _ _ _ _ _ _ _ _ _ _ _ _ _ _ _ _ F)|..]; try done.
  - congruence.
  - apply (wf_stream _ _ _ _ _ _ _ _ _ _ _ _ _ _ _ _ F).
  - done.
  - apply (wf_vault _ _ _ _ _ _ _ _ _ _ _ _ _ _ _ _ F).
Qed.

Lemma cancel_frame E sg a w w' evs : env_ok E ->
  cancel E sg a w = Ok (w', evs) -> frame E PLockup (xa_stream a) w w'.
Proof.
  intros HE (m & s & vt & dt & st & F)%cancel_inv.
  eapply (payout_frame E PLockup w w'); [done|apply (cf_pay _ _ _ _ _ _ _ _ _ _ _ F)|..]; try done.
  - congruence.
  - apply (cf_stream _ _ _ _ _ _ _ _ _ _ _ F).
  - done.
  - apply (cf_vault _ _ _ _ _ _ _ _ _ _ _ F).
  - pose proof (cf_lt _ _ _ _ _ _ _ _ _ _ _ F). lia.
Qed.

Lemma renounce_frame E sg a w w' evs S : 
  renounce E sg a w = Ok (w', evs) -> frame E PLockup S w w'.
Proof.
  intros (s & st & _ & _ & Hs & _ & _ & _ & _ & _ & -> & _)%renounce_inv.
  apply frame_of; auto.
  - intros k. rewrite wdat_set_dat. destruct (decide (k = ra_stream a)) as [->|]; [|left; by rewrite lookup_insert_ne].
    right. rewrite lookup_insert. eexists; split; [done|]. rewrite Hs. left. done.
  - intros k d Hk _. rewrite lam_set_dat. lia.
  - intros [Hr Hsu]. split.
    + intros k t. rewrite wdat_set_dat. intros [[_ ?]|[? ?]]%lookup_insert_Some; [done|eauto].
    + intros m Hm. rewrite total_balance_sum, wdat_set_dat, tok_sum_insert_zero by (done || intros; congruence).
      rewrite (supply_other w); [by apply Hsu|].
      intros mt. rewrite wdat_set_dat. destruct (decide (m = ra_stream a)) as [->|]; [rewrite lookup_insert; naive_solver|by rewrite lookup_insert_ne].
Qed.
