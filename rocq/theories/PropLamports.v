(** C70: lamports stay amounts: no account goes below zero and none above the u64 range, at no point of an instruction. *)
From Verif Require Export PropCosts PropConserve.

(** What the runtime guarantees of a ledger: no account holds a negative amount and all of them together fit in a u64. *)
Definition lamports_ok (w : world) : Prop := (forall k, 0 <= lam w k) /\ lam_total w <= U64_MAX.

(** ** A ledger that is in order holds no single amount above the u64 range *)
Lemma lam_sum_nonneg L : (forall k z, L !! k = Some z -> 0 <= z) -> 0 <= lam_sum L.
Proof.
  induction L as [|k z L Hk IH] using map_ind; intros H; [done|]. rewrite lam_sum_insert_new by done.
  assert (0 <= z) by (apply (H k); apply lookup_insert). assert (0 <= lam_sum L); [|lia].
  apply IH. intros j y Hj. apply (H j). rewrite lookup_insert_ne; [done|]. congruence.
Qed.
Lemma lam_le_total w k : (forall k, 0 <= lam w k) -> lam w k <= lam_total w.
Proof.
  intros Hn. unfold lam. destruct (wlam w !! k) as [z|] eqn:Hk; cbn [default].
  - change (lam_total w) with (lam_sum (wlam w)). rewrite <- (insert_delete _ _ _ Hk), lam_sum_insert_new by apply lookup_delete.
    assert (0 <= lam_sum (delete k (wlam w))) as H0; [|clear - H0; cbn; lia]. apply lam_sum_nonneg. intros j y Hj.
    apply lookup_delete_Some in Hj as [_ Hj]. pose proof (Hn j) as H. unfold lam in H. rewrite Hj in H. exact H.
  - apply lam_sum_nonneg. intros j y Hj. pose proof (Hn j) as H. unfold lam in H. rewrite Hj in H. exact H.
Qed.
Theorem C70_fits : forall w k, lamports_ok w -> 0 <= lam w k <= U64_MAX.
Proof. intros w k [Hn Ht]. pose proof (lam_le_total w k Hn). split; [apply Hn|lia]. Qed.

(** ** The two ways to move lamports keep it in order; in particular the receiver's new balance, the sum the runtime checks
    for overflow, is in range *)
Definition nn (w : world) : Prop := forall k, 0 <= lam w k.
Lemma nn_moved w w' from to n : nn w -> 0 <= n <= lam w from ->
  (from <> to -> lam w' from = lam w from - n /\ lam w' to = lam w to + n) -> (from = to -> lam w' from = lam w from) ->
  (forall k, k <> from -> k <> to -> lam w' k = lam w k) -> nn w'.
Proof.
  intros Hn [H0 H1] H2 H3 H4 k. pose proof (Hn k) as Hk. destruct (decide (from = to)) as [He|Hne].
  - destruct (decide (k = from)) as [Hkf|Hkf]; [rewrite Hkf, (H3 He); by rewrite <- Hkf|]. rewrite H4; [done|done|congruence].
  - destruct (H2 Hne) as [Ha Hb]. destruct (decide (k = from)) as [Hkf|Hkf]; [rewrite Hkf, Ha; lia|].
    destruct (decide (k = to)) as [Hkt|Hkt]; [rewrite Hkt, Hb; rewrite <- Hkt; lia|]. by rewrite H4.
Qed.
Lemma nn_system from to n w w' : 0 <= n -> nn w -> system_transfer from to n w = Ok w' -> nn w'.
Proof. intros H0 Hn H. apply system_transfer_ok in H as (_ & _ & H1 & H2 & H3 & H4); [|exact H0]. exact (nn_moved _ _ _ _ _ Hn (conj H0 H1) H2 H3 H4). Qed.
Lemma nn_move from to n w w' : 0 <= n -> nn w -> move_lamports from to n w = Ok w' -> nn w'.
Proof. intros H0 Hn H. apply move_lamports_ok in H as (_ & _ & _ & H1 & H2 & H3 & H4). exact (nn_moved _ _ _ _ _ Hn (conj H0 H1) H2 H3 H4). Qed.
Theorem C70_moves : forall from to n w w', 0 <= n -> lamports_ok w ->
  system_transfer from to n w = Ok w' \/ move_lamports from to n w = Ok w' -> lamports_ok w' /\ 0 <= lam w' to <= U64_MAX.
Proof.
  intros from to n w w' H0 [Hn Ht] H. assert (lamports_ok w') as Hok; [|split; [exact Hok|by apply C70_fits]]. destruct H as [H|H]; split.
  - exact (nn_system _ _ _ _ _ H0 Hn H).
  - apply system_transfer_ok in H as (Hl & _); [|exact H0]. by rewrite (ls_total _ _ Hl).
  - exact (nn_move _ _ _ _ _ H0 Hn H).
  - apply move_lamports_ok in H as (_ & _ & -> & _). exact Ht.
Qed.

(** ** The other operations *)
Lemma nn_quiet w w' : nn w -> quiet w w' -> nn w'. Proof. intros H [Q _] k. rewrite Q. apply H. Qed.
Lemma nn_set_dat k d w : nn w -> nn (set_dat k d w). Proof. done. Qed.
Lemma nn_init E payer k space d w w' : env_ok E -> nn w -> init_account E payer k space d w = Ok w' -> nn w'.
Proof.
  intros HE Hn. unfold init_account. destruct (wdat w !! k); [discriminate|]. intros H. inv_all H. injection H as <-. apply nn_set_dat.
  match goal with H : (if 0 <? ?need then _ else _) = Ok _ |- _ => destruct (Z.ltb_spec 0 need) as [Hl|_] in H; [|injection H as <-; exact Hn];
    apply nn_system in H; [exact H|lia|exact Hn] end.
Qed.
Lemma nn_fund payer k n d w w' : nn w -> fund_account payer k n d w = Ok w' -> nn w'.
Proof.
  intros Hn. unfold fund_account. destruct (wdat w !! k); [discriminate|]. intros H. inv_all H. injection H as <-. apply nn_set_dat.
  destruct (Z.ltb_spec 0 n) as [Hl|_]; [|injection He0 as <-; exact Hn]. apply nn_system in He0; [exact He0|lia|exact Hn].
Qed.
Lemma nn_ata E payer k o m tp w w' : env_ok E -> nn w -> create_ata E payer k o m tp w = Ok w' -> nn w'.
Proof. intros HE Hn H. unfold create_ata in H. inv_all H. exact (nn_init _ _ _ _ _ _ _ HE Hn H). Qed.
Lemma nn_ata_if E payer k o m tp w w' : env_ok E -> nn w -> init_ata_if_needed E payer k o m tp w = Ok w' -> nn w'.
Proof.
  intros HE Hn Hx. destruct (wdat w !! k) as [d|] eqn:Hk.
  - pose proof (init_ata_if_needed_ok _ _ _ _ _ _ _ _ Hx) as (_ & t & _ & _ & _ & [(? & _)|(_ & ->)] & _); [congruence|exact Hn].
  - unfold init_ata_if_needed in Hx. rewrite Hk in Hx. exact (nn_ata _ _ _ _ _ _ _ _ HE Hn Hx).
Qed.
Lemma nn_metadata E payer md mintk auth signed name sym uri size w w' : env_ok E -> nn w ->
  create_metadata E payer md mintk auth signed name sym uri size w = Ok w' -> nn w'.
Proof. intros HE Hn H. unfold create_metadata in H. inv_all H. exact (nn_fund _ _ _ _ _ _ Hn H). Qed.
Lemma nn_edition E payer ed md mintk auth signed w w' : env_ok E -> nn w ->
  create_master_edition E payer ed md mintk auth signed w = Ok w' -> nn w'.
Proof.
  intros HE Hn H. unfold create_master_edition in H. inv_all H. injection H as <-. apply nn_set_dat.
  match goal with Hi : init_account _ _ _ _ _ _ = Ok _ |- _ => exact (nn_init _ _ _ _ _ _ _ HE Hn Hi) end.
Qed.
Lemma nn_fee fee prog feed signer treas w w' f : nn w -> charge_fee fee prog feed signer treas w = Ok (w', f) -> nn w'.
Proof. intros Hn H. apply charge_fee_ok in H as (_ & _ & [[_ ->]|[Hf H]]); [exact Hn|]. apply nn_system in H; [exact H|lia|exact Hn]. Qed.

Ltac nns HE := repeat match goal with
  | L : nn ?v, H : context [set_dat ?k ?d ?v] |- _ =>
      lazymatch goal with _ : nn (set_dat k d v) |- _ => fail | _ => idtac end; assert (nn (set_dat k d v)) by exact L
  | L : nn ?v, H : init_account _ _ _ _ _ ?v = Ok _ |- _ => apply (nn_init _ _ _ _ _ _ _ HE L) in H
  | L : nn ?v, H : create_mint _ _ _ _ _ _ _ ?v = Ok _ |- _ => apply (nn_init _ _ _ MINT_SPACE _ _ _ HE L) in H
  | L : nn ?v, H : create_ata _ _ _ _ _ _ ?v = Ok _ |- _ => apply (nn_ata _ _ _ _ _ _ _ _ HE L) in H
  | L : nn ?v, H : init_ata_if_needed _ _ _ _ _ _ ?v = Ok _ |- _ => apply (nn_ata_if _ _ _ _ _ _ _ _ HE L) in H
  | L : nn ?v, H : create_metadata _ _ _ _ _ _ _ _ _ _ ?v = Ok _ |- _ => apply (nn_metadata _ _ _ _ _ _ _ _ _ _ _ _ HE L) in H
  | L : nn ?v, H : create_master_edition _ _ _ _ _ _ _ ?v = Ok _ |- _ => apply (nn_edition _ _ _ _ _ _ _ _ _ HE L) in H
  | L : nn ?v, H : charge_fee _ _ _ _ _ ?v = Ok _ |- _ => apply (nn_fee _ _ _ _ _ _ _ _ L) in H
  | L : nn ?v, H : mint_to _ _ _ _ _ _ ?v = Ok _ |- _ => apply quiet_mint in H; apply (nn_quiet _ _ L) in H
  | L : nn ?v, H : transfer_checked _ _ _ _ _ _ _ _ _ ?v = Ok _ |- _ => apply quiet_transfer in H; apply (nn_quiet _ _ L) in H
  | L : nn ?v, H : sign_metadata _ _ ?v = Ok _ |- _ => apply quiet_sign in H; apply (nn_quiet _ _ L) in H
  | L : nn ?v, H : set_and_verify_collection _ _ _ _ _ _ _ ?v = Ok _ |- _ => apply quiet_verify in H; apply (nn_quiet _ _ L) in H
  end; repeat match goal with |- nn (set_dat _ _ _) => apply nn_set_dat end; match goal with L : nn ?v |- nn ?v => exact L end.

Lemma create_accounts_nn E sg a salt w w1 sb mb nc dm : env_ok E -> nn w -> create_accounts E sg a salt w = Ok (w1, sb, mb, nc, dm) -> nn w1.
Proof. intros HE Hn H. unfold create_accounts in H. inv_all H. injection H as <- _ _ _ _. nns HE. Qed.
Lemma create_handler_nn E sg a p sb mb nc dm w w' evs : env_ok E -> nn w -> create_handler E sg a p sb mb nc dm w = Ok (w', evs) -> nn w'.
Proof.
  intros HE Hn H. unfold create_handler in H. inv_all H. injection H as <- _.
  match goal with Hn : nft_create_stream _ _ _ _ = Ok _ |- _ => unfold nft_create_stream in Hn; inv_all Hn end. nns HE.
Qed.
Lemma withdraw_nn E sg a amount w w' evs : env_ok E -> nn w -> withdraw E sg a amount w = Ok (w', evs) -> nn w'.
Proof.
  intros HE Hn H. unfold withdraw in H. apply rbind_ok in H as ([[w1 s] m] & H1 & H2). unfold withdraw_accounts in H1. inv_all H1. injection H1 as <- _ _.
  unfold withdraw_handler in H2. inv_all H2. match goal with p : (world * Z)%type |- _ => destruct p as [w3 fee'] end. inv_all H2. injection H2 as <- _. nns HE.
Qed.
Lemma exec_nn E sg i w w' evs : env_ok E -> nn w -> exec E sg i w = Ok (w', evs) -> nn w'.
Proof.
  intros HE Hn Hx. destruct i as [[a f p c|a p|a q|a|a|a amount|a|a]|[i t f p c|a g|a index amount proof|a amount|a]]; cbn [exec] in Hx.
  - unfold lockup_exec in Hx. inv_all Hx. unfold initialize in Hx. inv_all Hx. injection Hx as <- _. nns HE.
  - unfold lockup_exec in Hx. inv_all Hx. unfold create_with_timestamps in Hx. apply rbind_ok in Hx as ([[[[w1 sb] mb] nc] dm] & H1 & H2).
    exact (create_handler_nn _ _ _ _ _ _ _ _ _ _ _ HE (create_accounts_nn _ _ _ _ _ _ _ _ _ _ HE Hn H1) H2).
  - unfold lockup_exec in Hx. inv_all Hx. unfold create_with_durations in Hx. apply rbind_ok in Hx as ([[[[w1 sb] mb] nc] dm] & H1 & H2). inv_all H2.
    exact (create_handler_nn _ _ _ _ _ _ _ _ _ _ _ HE (create_accounts_nn _ _ _ _ _ _ _ _ _ _ HE Hn H1) H2).
  - unfold lockup_exec in Hx. inv_all Hx. unfold renounce in Hx. inv_all Hx. injection Hx as <- _. exact Hn.
  - unfold lockup_exec in Hx. inv_all Hx. unfold Lockup.cancel in Hx. inv_all Hx. injection Hx as <- _. nns HE.
  - unfold lockup_exec in Hx. inv_all Hx. exact (withdraw_nn _ _ _ _ _ _ _ HE Hn Hx).
  - unfold lockup_exec in Hx. inv_all Hx. apply withdraw_max_eq in Hx as (wd & _ & Hx). exact (withdraw_nn _ _ _ _ _ _ _ HE Hn Hx).
  - apply lockup_exec_effect in Hx as [_ Heff].
    inversion Heff as [| ? ? ? ? ? ? ? ? ? ? ? ? ? ? [?|(? & ? & _)] | | |? ? ? ? ? ? ? ? ? ? ? ? ? ? [?|[? _]] |? tr n ? ? ? ? ? Hnn ? Hmv]; subst; try discriminate.
    refine (nn_move _ _ _ _ _ _ Hn Hmv). lia.
  - unfold merkle_exec in Hx. inv_all Hx. unfold m_initialize in Hx. inv_all Hx. injection Hx as <- _. nns HE.
  - unfold merkle_exec in Hx. inv_all Hx. unfold create_campaign in Hx. inv_all Hx. injection Hx as <- _. nns HE.
  - unfold merkle_exec in Hx. inv_all Hx. unfold claim in Hx. inv_all Hx. match goal with p : (world * Z)%type |- _ => destruct p as [w3 fee'] end.
    inv_all Hx. injection Hx as <- _. nns HE.
  - unfold merkle_exec in Hx. inv_all Hx. unfold clawback in Hx. inv_all Hx. injection Hx as <- _. nns HE.
  - apply merkle_exec_effect in Hx as [_ Heff]. inversion Heff as [| | | |? tr n ? ? ? ? ? Hnn ? Hmv]; subst. refine (nn_move _ _ _ _ _ _ Hn Hmv). lia.
Qed.

(** ** C70 *)
Theorem C70_lamports : forall E sg i w w' evs, env_ok E -> signers_ok E sg -> exec E sg i w = Ok (w', evs) -> lamports_ok w ->
  lamports_ok w' /\ forall k, 0 <= lam w' k <= U64_MAX.
Proof.
  intros E sg i w w' evs HE Hsg Hx [Hn Ht].
  assert (lamports_ok w') as Hok; [|split; [exact Hok|intros k; by apply C70_fits]]. split; [exact (exec_nn _ _ _ _ _ _ HE Hn Hx)|].
  destruct i as [ix|ix]; cbn [exec] in Hx; [rewrite (proj1 (C32_lockup _ _ _ _ _ _ HE Hsg Hx))|rewrite (proj1 (C32_merkle _ _ _ _ _ _ HE Hsg Hx))]; exact Ht.
Qed.
(** Along a history: if everybody else keeps the ledger in order, it always is. *)
Inductive orderly_run (E : env) (C : Z -> Z -> Prop) (w0 : world) : trace -> world -> Prop :=
| orderly_nil : orderly_run E C w0 [] w0
| orderly_snoc tr w a evs w' : orderly_run E C w0 tr w -> step E C w a evs w' -> (a = AOthers -> lamports_ok w') ->
    orderly_run E C w0 (tr ++ [(a, evs)]) w'.
Theorem C70_history : forall E C w0 tr w, env_ok E -> orderly_run E C w0 tr w -> lamports_ok w0 ->
  forall k, 0 <= lam w k <= U64_MAX.
Proof.
  intros E C w0 tr w HE Hr H0. cut (lamports_ok w); [intros H k; by apply C70_fits|]. induction Hr as [|tr w a evs w' Hr IH Hs Ho]; [exact H0|].
  destruct Hs as [sg ix evs w' Hsg Hx|sg ix evs w' Hsg Hx|w' Hot Hc].
  - exact (proj1 (C70_lamports E sg (IL ix) w w' evs HE Hsg Hx IH)).
  - exact (proj1 (C70_lamports E sg (IM ix) w w' evs HE Hsg Hx IH)).
  - exact (Ho eq_refl).
Qed.

(** The first world of the run is in order; so [C70_lamports] applies to its instructions. *)
Example C70_example : lamports_ok w0 /\ lamports_ok w1 /\
  match exec E0 [kSender] (IL (LCancel (cancel_of 1))) w1 with Ok (w', _) => 0 <= lam w' kSender <= U64_MAX | Err _ => False end.
Proof.
  assert (forall w, forallb (fun x => 0 <=? snd x) (map_to_list (wlam w)) = true -> forall k, 0 <= lam w k) as Hf.
  { intros w H k. unfold lam. destruct (wlam w !! k) as [z|] eqn:Hk; cbn [default]; [|lia].
    rewrite forallb_forall in H. specialize (H (k, z)). cbn in H. apply Z.leb_le, H, elem_of_list_In, elem_of_map_to_list, Hk. }
  assert (lamports_ok w0) as H0 by (split; [apply Hf; vm_compute; reflexivity|vm_compute; discriminate]).
  assert (lamports_ok w1) as H1 by (split; [apply Hf; vm_compute; reflexivity|vm_compute; discriminate]).
  split; [exact H0|]. split; [exact H1|].
  destruct (exec E0 [kSender] (IL (LCancel (cancel_of 1))) w1) as [[w' evs]|e] eqn:Hx.
  - refine (proj2 (C70_lamports E0 [kSender] _ w1 w' evs E0_ok _ Hx H1) kSender). intros k ->%elem_of_list_singleton. split; vm_compute; reflexivity.
  - assert (is_ok (exec E0 [kSender] (IL (LCancel (cancel_of 1))) w1) = true) as Hok by (vm_compute; reflexivity). rewrite Hx in Hok. discriminate.
Qed.

Print Assumptions C70_lamports.
Print Assumptions C70_moves.
