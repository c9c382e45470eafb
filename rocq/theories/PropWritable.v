(** C62: an instruction changes only accounts its interface declares writable. *)
From Verif Require Export PropConsent.

(** ** The declared writable accounts
    The fields marked [mut], [init] or [init_if_needed] in each accounts struct (Anchor derives the
    [isWritable] flags of the IDL from them, and the runtime refuses a transaction that changes any other account). *)
Definition create_writable (a : create_accs) : list key :=
  (* programs/lockup/src/instructions/create_with_timestamps.rs:26, 30, 50, 72, 100, 117, 127, 137, 147, 161 *)
  [ca_creator a; ca_creator_ata a; ca_nft_collection_data a; ca_coll_metadata a; ca_nft_mint a;
   ca_recipient_nft_ata a; ca_stream a; ca_vault a; ca_edition a; ca_metadata a].
Definition withdraw_writable (a : withdraw_accs) : list key :=
  (* programs/lockup/src/instructions/withdraw.rs:28, 48, 61, 88, 96 *)
  [wa_signer a; wa_dest a; wa_treasury a; wa_stream a; wa_vault a].
Definition lockup_writable (ix : lockup_ix) : list key :=
  match ix with
  | LInitialize a _ _ _ =>
      (* programs/lockup/src/instructions/initialize.rs:23, 30, 43, 53, 68, 82, 95 *)
      [ia_initializer a; ia_treasury a; ia_nft_collection_data a; ia_edition a; ia_metadata a; ia_mint a; ia_ata a]
  | LCreateTs a _ | LCreateDur a _ => create_writable a
  | LRenounce a => [ra_stream a]      (* programs/lockup/src/instructions/renounce.rs:25 *)
  | LCancel a =>
      (* programs/lockup/src/instructions/cancel.rs:21, 28, 45, 56 *)
      [xa_sender a; xa_sender_ata a; xa_stream a; xa_vault a]
  | LWithdraw a _ | LWithdrawMax a => withdraw_writable a
  | LCollectFees a => [fa_recipient a; fa_treasury a]  (* programs/lockup/src/instructions/collect_fees.rs:18, 26 *)
  end.
Definition merkle_writable (ix : merkle_ix) : list key :=
  match ix with
  | MInitialize i t _ _ _ => [i; t]   (* programs/merkle_instant/src/instructions/initialize.rs:14, 21 *)
  | MCreateCampaign a _ =>
      (* programs/merkle_instant/src/instructions/create_campaign.rs:27, 38, 56 *)
      [na_creator a; na_campaign a; na_vault a]
  | MClaim a _ _ _ =>
      (* programs/merkle_instant/src/instructions/claim.rs:28, 36, 49, 64, 68, 77 *)
      [la_claimer a; la_recipient_ata a; la_treasury a; la_campaign a; la_vault a; la_receipt a]
  | MClawback a _ =>
      (* programs/merkle_instant/src/instructions/clawback.rs:18, 29, 49; the campaign is not writable *)
      [ba_creator a; ba_recipient_ata a; ba_vault a]
  | MCollectFees a => [fa_recipient a; fa_treasury a]  (* programs/merkle_instant/src/instructions/collect_fees.rs:19, 26 *)
  end.

(** Every account outside [L] keeps its data and its lamports. *)
Definition only_touches (L : list key) (w w' : world) : Prop :=
  forall k, k ∉ L -> wdat w' !! k = wdat w !! k /\ lam w' k = lam w k.

(** ** The called programs *)
Lemma ot_refl L w : only_touches L w w.
Proof. done. Qed.
Lemma ot_trans L w w1 w2 : only_touches L w w1 -> only_touches L w1 w2 -> only_touches L w w2.
Proof. intros H1 H2 k Hk. destruct (H1 k Hk) as [<- <-]. exact (H2 k Hk). Qed.
Lemma ot_set_dat L k d w w1 : k ∈ L -> only_touches L w w1 -> only_touches L w (set_dat k d w1).
Proof.
  intros Hk H k' Hk'. destruct (H k' Hk') as [<- <-]. split; [|done]. simpl.
  rewrite lookup_insert_ne; [done|]. intros ->. done.
Qed.
Lemma ot_set_lam L k n w w1 : k ∈ L -> only_touches L w w1 -> only_touches L w (set_lam k n w1).
Proof.
  intros Hk H k' Hk'. destruct (H k' Hk') as [<- <-]. split; [done|]. unfold lam; simpl.
  rewrite lookup_insert_ne; [done|]. intros ->. done.
Qed.
Lemma ot_transfer L from to n w w' : from ∈ L -> to ∈ L -> system_transfer from to n w = Ok w' -> only_touches L w w'.
Proof.
  intros Hf Ht. unfold system_transfer. repeat case_match; try discriminate. intros [= <-].
  apply ot_set_lam; [done|]. apply ot_set_lam; [done|]. apply ot_refl.
Qed.
Lemma ot_init L E p k sp d w w' : p ∈ L -> k ∈ L -> init_account E p k sp d w = Ok w' -> only_touches L w w'.
Proof.
  intros Hp Hk. unfold init_account. destruct (wdat w !! k); [discriminate|]. intros H. inv_all H. injection H as <-.
  apply ot_set_dat; [done|]. set (need := if lam w k =? 0 then _ else _) in *. destruct (0 <? need).
  - eapply ot_transfer; [| |exact He0]; done.
  - injection He0 as <-. apply ot_refl.
Qed.
Lemma ot_fund L p k n d w w' : p ∈ L -> k ∈ L -> fund_account p k n d w = Ok w' -> only_touches L w w'.
Proof.
  intros Hp Hk. unfold fund_account. destruct (wdat w !! k); [discriminate|]. intros H. inv_all H. injection H as <-.
  apply ot_set_dat; [done|]. destruct (0 <? n).
  - eapply ot_transfer; [| |exact He0]; done.
  - injection He0 as <-. apply ot_refl.
Qed.
Lemma ot_ata L E p k o m tp w w' : p ∈ L -> k ∈ L -> create_ata E p k o m tp w = Ok w' -> only_touches L w w'.
Proof. intros Hp Hk. unfold create_ata. intros H. inv_all H. eapply ot_init; [| |exact H]; done. Qed.
Lemma ot_ata_if L E p k o m tp w w' : p ∈ L -> k ∈ L -> init_ata_if_needed E p k o m tp w = Ok w' -> only_touches L w w'.
Proof.
  intros Hp Hk. unfold init_ata_if_needed. destruct (wdat w !! k) as [[]|]; try discriminate; [|by apply ot_ata].
  intros H. inv_all H. injection H as <-. apply ot_refl.
Qed.
Lemma ot_mint L E p k tp dec au fr w w' : p ∈ L -> k ∈ L -> create_mint E p k tp dec au fr w = Ok w' -> only_touches L w w'.
Proof. apply ot_init. Qed.
Lemma ot_mint_to L tp m to au sg n w w' : m ∈ L -> to ∈ L -> mint_to tp m to au sg n w = Ok w' -> only_touches L w w'.
Proof. intros Hm Ht. unfold mint_to. intros H. inv_all H. injection H as <-. apply ot_set_dat; [done|]. apply ot_set_dat; [done|]. apply ot_refl. Qed.
Lemma ot_md L E p md m au sg nm sy ur sz w w' : p ∈ L -> md ∈ L -> create_metadata E p md m au sg nm sy ur sz w = Ok w' -> only_touches L w w'.
Proof. intros Hp Hm. unfold create_metadata. intros H. inv_all H. eapply ot_fund; [| |exact H]; done. Qed.
Lemma ot_edition L E p ed md m au sg w w' : p ∈ L -> ed ∈ L -> m ∈ L -> create_master_edition E p ed md m au sg w = Ok w' -> only_touches L w w'.
Proof.
  intros Hp He Hm. unfold create_master_edition. intros H. inv_all H. injection H as <-. apply ot_set_dat; [done|].
  eapply ot_init; [| |eassumption]; done.
Qed.
Lemma ot_verify L E md au a b c sg w w' : md ∈ L -> b ∈ L -> set_and_verify_collection E md au a b c sg w = Ok w' -> only_touches L w w'.
Proof.
  intros Hm Hb. unfold set_and_verify_collection. intros H. repeat case_match; try discriminate. inv_all H. injection H as <-.
  apply ot_set_dat; [done|]. apply ot_set_dat; [done|]. apply ot_refl.
Qed.
Lemma ot_sign L md sg w w' : md ∈ L -> sign_metadata md sg w = Ok w' -> only_touches L w w'.
Proof.
  intros Hm. unfold sign_metadata. intros H. repeat case_match; try discriminate. inv_all H. injection H as <-.
  apply ot_set_dat; [done|]. apply ot_refl.
Qed.
Lemma ot_transfer_checked L E tp f t au sg m am d w w' : f ∈ L -> t ∈ L -> transfer_checked E tp f t au sg m am d w = Ok w' -> only_touches L w w'.
Proof.
  intros Hf Ht. unfold transfer_checked. intros H. inv_all H. destruct (f =? t).
  - injection H as <-. apply ot_refl.
  - inv_all H. injection H as <-. apply ot_set_dat; [done|]. apply ot_set_dat; [done|]. apply ot_refl.
Qed.
Lemma ot_fee L fee_usd pr fd p t w w' fee : p ∈ L -> t ∈ L -> charge_fee fee_usd pr fd p t w = Ok (w', fee) -> only_touches L w w'.
Proof.
  intros Hp Ht. unfold charge_fee. intros H. inv_all H. destruct (0 <? x).
  - inv_all H. injection H as <- <-. eapply ot_transfer; [| |eassumption]; done.
  - injection H as <- <-. apply ot_refl.
Qed.
Lemma ot_move L f t n w w' : f ∈ L -> t ∈ L -> move_lamports f t n w = Ok w' -> only_touches L w w'.
Proof.
  intros Hf Ht. unfold move_lamports. intros H. inv_all H. injection H as <-.
  apply ot_set_lam; [done|]. apply ot_set_lam; [done|]. apply ot_refl.
Qed.

(** Membership in a literal list. *)
Ltac mem := unfold create_writable, withdraw_writable; repeat first [apply elem_of_list_here | apply elem_of_list_further].

Ltac ot_step :=
  match goal with
  | |- only_touches ?p ?w ?w => apply ot_refl
  | |- only_touches _ _ (set_dat _ _ _) => apply ot_set_dat; [mem|]
  | H : init_account _ _ _ _ _ _ = Ok ?x |- only_touches _ _ ?x => eapply ot_trans; [|eapply ot_init; [| |exact H]; mem]
  | H : create_ata _ _ _ _ _ _ _ = Ok ?x |- only_touches _ _ ?x => eapply ot_trans; [|eapply ot_ata; [| |exact H]; mem]
  | H : init_ata_if_needed _ _ _ _ _ _ _ = Ok ?x |- only_touches _ _ ?x => eapply ot_trans; [|eapply ot_ata_if; [| |exact H]; mem]
  | H : create_mint _ _ _ _ _ _ _ _ = Ok ?x |- only_touches _ _ ?x => eapply ot_trans; [|eapply ot_mint; [| |exact H]; mem]
  | H : mint_to _ _ _ _ _ _ _ = Ok ?x |- only_touches _ _ ?x => eapply ot_trans; [|eapply ot_mint_to; [| |exact H]; mem]
  | H : create_metadata _ _ _ _ _ _ _ _ _ _ _ = Ok ?x |- only_touches _ _ ?x => eapply ot_trans; [|eapply ot_md; [| |exact H]; mem]
  | H : create_master_edition _ _ _ _ _ _ _ _ = Ok ?x |- only_touches _ _ ?x => eapply ot_trans; [|eapply ot_edition; [| | |exact H]; mem]
  | H : set_and_verify_collection _ _ _ _ _ _ _ _ = Ok ?x |- only_touches _ _ ?x => eapply ot_trans; [|eapply ot_verify; [| |exact H]; mem]
  | H : sign_metadata _ _ _ = Ok ?x |- only_touches _ _ ?x => eapply ot_trans; [|eapply ot_sign; [|exact H]; mem]
  | H : transfer_checked _ _ _ _ _ _ _ _ _ _ = Ok ?x |- only_touches _ _ ?x => eapply ot_trans; [|eapply ot_transfer_checked; [| |exact H]; mem]
  | H : charge_fee _ _ _ _ _ _ = Ok (?x, _) |- only_touches _ _ ?x => eapply ot_trans; [|eapply ot_fee; [| |exact H]; mem]
  | H : move_lamports _ _ _ _ = Ok ?x |- only_touches _ _ ?x => eapply ot_trans; [|eapply ot_move; [| |exact H]; mem]
  end.

(** ** The instructions *)
Lemma create_accounts_touches E sg a salt w w' sb mb nc dm : create_accounts E sg a salt w = Ok (w', sb, mb, nc, dm) -> only_touches (create_writable a) w w'.
Proof. unfold create_accounts. intros H. inv_all H. injection H as <- <- <- <- <-. repeat ot_step. Qed.
Lemma create_handler_touches E sg a p sb mb nc dm w w' evs : create_handler E sg a p sb mb nc dm w = Ok (w', evs) -> only_touches (create_writable a) w w'.
Proof. unfold create_handler, nft_create_stream. intros H. inv_all H. injection H as <- <-. inv_all He0. repeat ot_step. Qed.
Lemma withdraw_handler_touches E a n s m w w' evs : withdraw_handler E a n s m w = Ok (w', evs) -> only_touches (withdraw_writable a) w w'.
Proof.
  unfold withdraw_handler. intros H. inv_all H. match goal with p : (world * Z)%type |- _ => destruct p as [w3 fee'] end.
  inv_all H. injection H as <- <-. repeat ot_step.
Qed.
Lemma withdraw_accounts_touches E sg a w w' s m : withdraw_accounts E sg a w = Ok (w', s, m) -> only_touches (withdraw_writable a) w w'.
Proof. unfold withdraw_accounts. intros H. inv_all H. injection H as <- <- <-. repeat ot_step. Qed.

Lemma lockup_touches E sg ix w w' evs : lockup_exec E sg ix w = Ok (w', evs) -> only_touches (lockup_writable ix) w w'.
Proof.
  unfold lockup_exec. intros H. apply rbind_ok in H as (? & _ & H). destruct ix; cbn [lockup_writable].
  - unfold initialize in H. inv_all H. injection H as <- <-. repeat ot_step.
  - unfold create_with_timestamps in H. inv_all H. match goal with p : (world * Z * Z * nft_collection * mint)%type |- _ => destruct p as [[[[wx sb] mb] nc] dm] end.
    eapply ot_trans; [eapply create_accounts_touches; exact He|eapply create_handler_touches; exact H].
  - unfold create_with_durations in H. inv_all H. match goal with p : (world * Z * Z * nft_collection * mint)%type |- _ => destruct p as [[[[wx sb] mb] nc] dm] end. inv_all H.
    eapply ot_trans; [eapply create_accounts_touches; exact He|eapply create_handler_touches; exact H].
  - unfold renounce in H. inv_all H. injection H as <- <-. repeat ot_step.
  - unfold Lockup.cancel in H. inv_all H. injection H as <- <-. repeat ot_step.
  - unfold withdraw in H. inv_all H. match goal with p : (world * stream_data * mint)%type |- _ => destruct p as [[wx s] m] end.
    eapply ot_trans; [eapply withdraw_accounts_touches; exact He|eapply withdraw_handler_touches; exact H].
  - unfold withdraw_max in H. inv_all H. match goal with p : (world * stream_data * mint)%type |- _ => destruct p as [[wx s] m] end. inv_all H.
    eapply ot_trans; [eapply withdraw_accounts_touches; exact He|eapply withdraw_handler_touches; exact H].
  - unfold lockup_collect_fees in H. inv_all H. injection H as <- <-. repeat ot_step.
Qed.
Lemma merkle_touches E sg ix w w' evs : merkle_exec E sg ix w = Ok (w', evs) -> only_touches (merkle_writable ix) w w'.
Proof.
  unfold merkle_exec. intros H. apply rbind_ok in H as (? & _ & H). destruct ix; cbn [merkle_writable].
  - unfold m_initialize in H. inv_all H. injection H as <- <-. repeat ot_step.
  - unfold create_campaign in H. inv_all H. injection H as <- <-. repeat ot_step.
  - unfold claim in H. inv_all H. match goal with p : (world * Z)%type |- _ => destruct p as [w3 fee'] end.
    inv_all H. injection H as <- <-. repeat ot_step.
  - unfold clawback in H. inv_all H. injection H as <- <-. repeat ot_step.
  - unfold merkle_collect_fees in H. inv_all H. injection H as <- <-. repeat ot_step.
Qed.

(** ** C62 *)
(** A successful instruction leaves the data and the lamports of every account it does not declare writable as they
    were. The statement holds for every world, environment, set of signers and choice of accounts (also when the caller
    passes the same address twice). *)
Theorem C62_lockup : forall E sg ix w w' evs,
  lockup_exec E sg ix w = Ok (w', evs) ->
  forall k, k ∉ lockup_writable ix -> wdat w' !! k = wdat w !! k /\ lam w' k = lam w k.
Proof. intros E sg ix w w' evs H. exact (lockup_touches _ _ _ _ _ _ H). Qed.
Theorem C62_merkle : forall E sg ix w w' evs,
  merkle_exec E sg ix w = Ok (w', evs) ->
  forall k, k ∉ merkle_writable ix -> wdat w' !! k = wdat w !! k /\ lam w' k = lam w k.
Proof. intros E sg ix w w' evs H. exact (merkle_touches _ _ _ _ _ _ H). Qed.

(** Two consequences read off the lists: a clawback never changes the campaign record, and a renouncement changes
    nothing but the stream record. *)
Corollary C62_clawback : forall E sg a n w w' evs,
  merkle_exec E sg (MClawback a n) w = Ok (w', evs) -> ba_campaign a ∉ [ba_creator a; ba_recipient_ata a; ba_vault a] ->
  wdat w' !! ba_campaign a = wdat w !! ba_campaign a.
Proof. intros E sg a n w w' evs H Hk. exact (proj1 (C62_merkle _ _ _ _ _ _ H _ Hk)). Qed.
Corollary C62_renounce : forall E sg a w w' evs,
  lockup_exec E sg (LRenounce a) w = Ok (w', evs) ->
  forall k, k <> ra_stream a -> wdat w' !! k = wdat w !! k /\ lam w' k = lam w k.
Proof.
  intros E sg a w w' evs H k Hk. apply (C62_lockup _ _ _ _ _ _ H). cbn [lockup_writable].
  intros Hin. apply elem_of_list_singleton in Hin. exact (Hk Hin).
Qed.

(** ** Examples: the lists are tight. In the sample history a creation changes each of its ten declared accounts, and
    a claim for a newcomer each of its six but the treasury (the deployed fee is 0). *)
Definition changed (w w' : world) (k : key) : Prop := wdat w' !! k <> wdat w !! k \/ lam w' k <> lam w k.
Example C62_create_tight :
  let ix := LCreateTs (create_for 1) dep1 in
  let w := w_ini in
  is_ok (lockup_exec E0 [kSender] ix w) = true /\
  length (lockup_writable ix) = 10%nat /\
  Forall (changed w (after (lockup_exec E0 [kSender] ix w) w)) (lockup_writable ix).
Proof.
  cbv zeta. split; [vm_compute; reflexivity|]. split; [vm_compute; reflexivity|].
  repeat (apply List.Forall_cons; [first [left; vm_compute; discriminate | right; vm_compute; discriminate]|]). apply List.Forall_nil.
Qed.
Example C62_claim_tight :
  let a := claim_by kOther 1500 0 2 kCollector in
  let ix := MClaim a 2 200 [nodeAB] in
  let w := T 1800 w5 in
  let w' := after (merkle_exec E0 [kOther] ix w) w in
  is_ok (merkle_exec E0 [kOther] ix w) = true /\
  Forall (changed w w') [la_claimer a; la_recipient_ata a; la_campaign a; la_vault a; la_receipt a] /\
  wdat w' !! la_mint a = wdat w !! la_mint a /\ lam w' (la_recipient a) = lam w (la_recipient a).
Proof.
  cbv zeta. split; [vm_compute; reflexivity|]. split.
  - repeat (apply List.Forall_cons; [first [left; vm_compute; discriminate | right; vm_compute; discriminate]|]). apply List.Forall_nil.
  - split; vm_compute; reflexivity.
Qed.

Print Assumptions C62_lockup.
Print Assumptions C62_merkle.
