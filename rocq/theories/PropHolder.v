(** C88: whoever holds the NFT decides, and a sale hands everything over. *)
From Verif Require Export PropLive PropHistory.
From Verif Require Import PropCreateLive ToyRun Lockup.

(** ** The owner of the token account with the NFT decides *)
(** [x] is the token account that holds the NFT of stream [k]. Whatever withdrawal succeeds names it and its owner, and pays
    him or is signed by him. *)
Theorem C88_owner_decides : forall E tr ws w k nft s x t sg ix a w' evs,
  env_ok E -> history_via E any_clock tr ws w -> key_ok (tprog_id E SplToken) -> key_ok (tprog_id E Token2022) ->
  stream_at E w k nft s -> wdat w !! x = Some (DToken t) -> t_mint t = nft -> 0 < t_amount t ->
  is_withdraw ix a -> wa_stream a = k -> lockup_exec E sg ix w = Ok (w', evs) ->
  (wa_stream_recipient a = t_owner t /\ wa_nft_ata a = x /\
   ((wa_withdrawal_recipient a = t_owner t /\ ata_address E (t_owner t) (wa_mint a) (wa_tp a) = Ok (wa_dest a)) \/ t_owner t ∈ sg)) \/
  nft_address_collision E ws w s a.
Proof.
  intros E tr ws w k nft s x t sg ix a w' evs HE Hvia K1 K2 [Hk Hn] Hx Hm Ht Hix Ha He.
  assert (reachable E w) as Hr by (exists tr; exact (via_history _ _ _ _ _ Hvia)).
  destruct (withdraw_holder _ _ _ _ _ _ _ _ _ _ _ HE Hvia K1 K2 Hk Hix Ha He) as [Hc|(nft2 & nt & [_ Hn2] & Hnt & M2 & Q2 & O2)]; [right; exact Hc|left].
  destruct Hn as [b1 N1]. destruct Hn2 as [b2 N2]. destruct (fpa_fun _ _ _ _ _ _ _ N1 N2) as [<- _].
  assert (wa_nft_ata a = x) as Hax.
  { apply (proj2 (C24_one_nft E w k nft s HE Hr (conj Hk (ex_intro _ _ N1))) _ nt _ t Hnt Hx M2 Hm); [rewrite Q2; reflexivity|exact Ht]. }
  rewrite Hax, Hx in Hnt. injection Hnt as <-.
  destruct (C10_authorised _ _ _ _ _ _ _ Hix He) as [_ Hd]. rewrite <- O2 in Hd.
  split; [symmetry; exact O2|]. split; [exact Hax|exact Hd].
Qed.

(** A former holder is out: without the signature of the present one nothing goes anywhere but to the present one. *)
Theorem C88_others_cannot_direct : forall E tr ws w k nft s x t sg ix a w' evs,
  env_ok E -> history_via E any_clock tr ws w -> key_ok (tprog_id E SplToken) -> key_ok (tprog_id E Token2022) ->
  stream_at E w k nft s -> wdat w !! x = Some (DToken t) -> t_mint t = nft -> 0 < t_amount t ->
  is_withdraw ix a -> wa_stream a = k -> t_owner t ∉ sg -> wa_withdrawal_recipient a <> t_owner t ->
  lockup_exec E sg ix w = Ok (w', evs) -> nft_address_collision E ws w s a.
Proof.
  intros E tr ws w k nft s x t sg ix a w' evs HE Hvia K1 K2 Hs Hx Hm Ht Hix Ha Hsg Hwr He.
  destruct (C88_owner_decides _ _ _ _ _ _ _ _ _ _ _ _ _ _ HE Hvia K1 K2 Hs Hx Hm Ht Hix Ha He) as [(_ & _ & [[H _]|H])|H].
  - exfalso. exact (Hwr H).
  - exfalso. exact (Hsg H).
  - exact H.
Qed.

(** ** A sale changes nothing about the stream *)
(** Whatever happens outside of Lockup - here: to the NFT - leaves the stream record as it is, and the stream's vault with at
    least what the stream owes; the new holder can withdraw all of it in time (the premises are those of C19, for the
    new holder). *)
Theorem C88_sale_hands_over : forall E w w' k nft s sg a amount fee wd, env_ok E -> reachable_fwd E w ->
  step E forward_clock w AOthers [] w' -> stream_at E w k nft s -> wa_stream a = k -> wa_nft_mint a = nft ->
  (* after the sale: the holder, the receiving account and the fee in order *)
  withdraw_ready E w' sg a amount fee s -> withdrawable_amount_of E k nft w' = Ok wd -> 1 <= amount <= wd ->
  stream_at E w' k nft s /\
  (exists old, withdrawable_amount_of E k nft w = Ok old /\ old <= wd) /\
  (exists w2 evs, lockup_exec E sg (LWithdraw a amount) w' = Ok (w2, evs)).
Proof.
  intros E w w' k nft s sg a amount fee wd HE Hr Hst Hs Hak Han R Hwd Ham.
  pose proof (reachable_inv _ _ HE (fwd_reachable _ _ Hr)) as Hi.
  assert (later_fwd E w w') as Hl.
  { exists [(AOthers, [])]. split; [exact (run_snoc E forward_clock w [] w AOthers [] w' (run_nil _ _ _) Hst)|apply Hr]. }
  pose proof (reachable_fwd_later _ _ _ HE Hr Hl) as Hr'.
  assert (stream_at E w' k nft s) as Hs'.
  { destruct Hs as [Hk Hn]. destruct (step_stream _ _ _ _ _ _ _ _ HE (inv_sane _ _ Hi) Hst Hk) as (s' & Hk' & [(sg1 & ix & Hbad & _)|(_ & -> & _)]).
    - discriminate Hbad.
    - split; [exact Hk'|exact Hn]. }
  split; [exact Hs'|]. split; [|rewrite <- Hak, <- Han in Hwd; exact (C19_withdraw_succeeds E w' sg a amount fee s wd HE Hr' R Hwd Ham)].
  pose proof (view_at _ _ _ _ _ Hi Hs) as Hv. pose proof (inv_stream_ok _ _ _ _ Hi (proj1 Hs)) as Hok.
  eexists. split; [apply (withdrawable_view _ _ _ _ _ Hv Hok); exact (reachable_fwd_ok _ _ HE Hr _ _ (proj1 Hs))|].
  pose proof (reachable_inv _ _ HE (fwd_reachable _ _ Hr')) as Hi'.
  destruct (withdrawable_view_inv _ _ _ _ _ _ (view_at _ _ _ _ _ Hi' Hs') (inv_stream_ok _ _ _ _ Hi' (proj1 Hs')) Hwd) as [-> _].
  pose proof (later_fwd_clock _ _ _ HE Hl) as Hclk. rewrite !now_clock by lia.
  assert (entitled s (wclock w) <= entitled s (wclock w')) by (apply entitled_mono; [exact Hok|lia]). lia.
Qed.

(** ** Example: the recipient of stream 1 sells the NFT to kOther. *)
(** One token goes from [k] to [k2]. *)
Definition move1 (k : key) (t : tokacc) (k2 : key) (t2 : tokacc) (w : world) : world :=
  set_dat k (DToken (with_amount t (t_amount t - 1))) (set_dat k2 (DToken (with_amount t2 (t_amount t2 + 1))) w).
Lemma others_move E w k t k2 t2 : token_sane E w -> keys_sane w -> wdat w !! k = Some (DToken t) -> wdat w !! k2 = Some (DToken t2) ->
  k <> k2 -> t_mint t2 = t_mint t -> 1 <= t_amount t -> t_amount t2 + 1 <= U64_MAX ->
  pda_of E PLockup (t_owner t) = false -> pda_of E PMerkle (t_owner t) = false -> others_step E w (move1 k t k2 t2 w).
Proof.
  intros Hs Hks Hk Hk2 Hne Hm Hn Hn2 O1 O2.
  assert (forall i, wdat (move1 k t k2 t2 w) !! i = if decide (i = k) then Some (DToken (with_amount t (t_amount t - 1)))
    else if decide (i = k2) then Some (DToken (with_amount t2 (t_amount t2 + 1))) else wdat w !! i) as HD.
  { intros i. unfold move1. simpl. destruct (decide (i = k)) as [->|Hi]; [by rewrite lookup_insert|].
    rewrite lookup_insert_ne by done. destruct (decide (i = k2)) as [->|Hi2]; [by rewrite lookup_insert|]. by rewrite lookup_insert_ne. }
  assert (forall i, lam (move1 k t k2 t2 w) i = lam w i) as HL by done.
  assert (forall p, pda_of E p (t_owner t) = false -> untouched E p w (move1 k t k2 t2 w)) as Hunt.
  { intros p Hp. split.
    - intros i d Hi Hd. rewrite HD, HL. destruct (decide (i = k)) as [->|Hi1]; [rewrite Hk in Hi; by injection Hi as <-|].
      destruct (decide (i = k2)) as [->|Hi2]; [rewrite Hk2 in Hi; by injection Hi as <-|]. split; [done|lia].
    - intros i d. rewrite HD. destruct (decide (i = k)) as [->|Hi1]; [by intros [= <-]|].
      destruct (decide (i = k2)) as [->|Hi2]; [by intros [= <-]|]. done.
    - intros i _ Hi. rewrite HD. destruct (decide (i = k)) as [->|Hi1]; [congruence|].
      destruct (decide (i = k2)) as [->|Hi2]; [congruence|]. done.
    - intros i ti Hi Ho _. rewrite HD. destruct (decide (i = k)) as [->|Hi1]; [rewrite Hk in Hi; injection Hi as <-; congruence|].
      destruct (decide (i = k2)) as [->|Hi2]; [|exists ti; split_and!; [done..|lia]].
      rewrite Hk2 in Hi. injection Hi as <-. eexists. split; [reflexivity|]. simpl. split_and!; [done..|lia]. }
  destruct Hs as [H1 H2]. split; [by apply Hunt|by apply Hunt| | | |].
  - intros i mi a Hi Ha Hpa _. rewrite HD. destruct (decide (i = k)) as [->|Hi1]; [congruence|].
    destruct (decide (i = k2)) as [->|Hi2]; [congruence|]. exists mi. split_and!; [done..|lia].
  - split.
    + intros i ti. rewrite HD. destruct (decide (i = k)) as [->|Hi1].
      * intros [= <-]. specialize (H1 _ _ Hk). simpl. lia.
      * destruct (decide (i = k2)) as [->|Hi2]; [|apply H1]. intros [= <-]. specialize (H1 _ _ Hk2). simpl. lia.
    + intros i Hi. specialize (H2 i Hi). rewrite total_balance_sum in *. unfold move1. cbn [wdat set_dat].
      rewrite (tok_sum_insert_same _ _ _ t); [|by rewrite lookup_insert_ne|done].
      rewrite (tok_sum_insert_same _ _ _ t2) by done. cbn [with_amount t_amount]. rewrite Hm.
      assert (supply (move1 k t k2 t2 w) i = supply w i) as Hsu.
      { unfold supply. rewrite HD. destruct (decide (i = k)) as [->|]; [by rewrite Hk|]. destruct (decide (i = k2)) as [->|]; [by rewrite Hk2|done]. }
      unfold move1 in Hsu. rewrite Hsu. destruct (t_mint t =? i); simpl; lia.
  - intros i ti. rewrite HD. destruct (decide (i = k)) as [->|Hi1].
    + intros [= <-] _. left. exists t. split; [exact Hk|done].
    + destruct (decide (i = k2)) as [->|Hi2]; [intros [= <-] _; left; exists t2; split; [exact Hk2|done]|].
      intros Hi _. left. exists ti. split; [exact Hi|done].
  - intros i ti. rewrite HD. destruct (decide (i = k)) as [->|Hi1].
    + intros [= <-]. exact (Hks _ _ Hk).
    + destruct (decide (i = k2)) as [->|Hi2]; [intros [= <-]; exact (Hks _ _ Hk2)|]. apply Hks.
Qed.

Definition seller_acc : key := ata kRecipient (kNft kSender 1) SplToken.
Definition buyer_acc : key := ata kOther (kNft kSender 1) SplToken.
(** The buyer opens a token account for the NFT; then it is sold. *)
Definition w2_open : world := match create_ata E0 kOther buyer_acc kOther (kNft kSender 1) SplToken w2 with Ok w => w | Err _ => w2 end.
Definition nft_of (who : key) (n : Z) : tokacc := TokAcc SplToken (kNft kSender 1) who n false.
Definition w2_sold : world := move1 seller_acc (nft_of kRecipient 1) buyer_acc (nft_of kOther 0) w2_open.
Definition withdraw_for (who to : key) : withdraw_accs :=
  WithdrawAccs who who to (ata to kToken SplToken) kTreasury kToken (ata who (kNft kSender 1) SplToken) (kStream kSender 1) (kVault kSender 1)
    (kNft kSender 1) kOracle kFeed SplToken SplToken.
Lemma w2_open_ok : create_ata E0 kOther buyer_acc kOther (kNft kSender 1) SplToken w2 = Ok w2_open.
Proof.
  unfold w2_open. destruct (create_ata _ _ _ _ _ _ _) as [w|e] eqn:H; [reflexivity|]. exfalso.
  assert (is_ok (create_ata E0 kOther buyer_acc kOther (kNft kSender 1) SplToken w2) = true) as Hok by (vm_compute; reflexivity).
  rewrite H in Hok. discriminate Hok.
Qed.
Example C88_example :
  reachable E0 w2_sold /\
  wdat w2_sold !! buyer_acc = Some (DToken (nft_of kOther 1)) /\
  (* before the sale the recipient, after it the buyer *)
  is_ok (lockup_exec E0 [kRecipient] (LWithdraw (withdraw_for kRecipient kCollector) 50) (T 1500 w2)) = true /\
  is_ok (lockup_exec E0 [kOther] (LWithdraw (withdraw_for kOther kCollector) 50) (T 1500 w2)) = false /\
  is_ok (lockup_exec E0 [kRecipient] (LWithdraw (withdraw_for kRecipient kCollector) 50) (T 1500 w2_sold)) = false /\
  is_ok (lockup_exec E0 [kOther] (LWithdraw (withdraw_for kOther kCollector) 50) (T 1500 w2_sold)) = true.
Proof.
  assert (others_step E0 w2 w2_open) as H1.
  { apply (create_ata_others E0 kOther buyer_acc kOther (kNft kSender 1) SplToken);
      [exact E0_ok|exact (E0_sane _ _ w2_hist)|exact (E0_keys _ _ w2_hist)| | |exact w2_open_ok]; vm_compute; split; first [reflexivity|discriminate]. }
  assert (others_step E0 w2_open w2_sold) as H2.
  { apply others_move; [exact (os_token _ _ _ H1)|exact (os_keys _ _ _ H1)| | | | | | | |]; vm_compute; try reflexivity; discriminate. }
  split.
  { apply (reachable_later E0 w2); [eapply history_reach, w2_hist|]. apply (later_trans E0 w2 w2_open).
    - apply (step_later E0 any_clock _ AOthers [] _). apply step_others; [exact H1|exact I].
    - apply (step_later E0 any_clock _ AOthers [] _). apply step_others; [exact H2|exact I]. }
  split_and!; vm_compute; reflexivity.
Qed.

Print Assumptions C88_owner_decides.
Print Assumptions C88_others_cannot_direct.
Print Assumptions C88_sale_hands_over.
