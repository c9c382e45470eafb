(** C64: burning a stream's NFT gives up the stream's payouts for good, and nothing else. *)
From Verif Require Export PropHistory PropLive.
From Verif Require Import Lockup.

Lemma tok_sum_one D m k t : (forall k t, D !! k = Some (DToken t) -> 0 <= t_amount t) ->
  D !! k = Some (DToken t) -> t_mint t = m -> t_amount t <= tok_sum D m.
Proof.
  intros Hn H1 M1. rewrite <- (insert_delete D k _ H1). rewrite tok_sum_insert_new by apply lookup_delete. simpl.
  rewrite (proj2 (Z.eqb_eq _ _) M1). assert (0 <= tok_sum (delete k D) m); [|lia].
  apply tok_sum_nonneg. intros k' t' [_ Hk]%lookup_delete_Some. by apply (Hn k').
Qed.

(** A sealed mint stays sealed, and its supply never grows. *)
Lemma run_sealed E C w tr w' nft m au : env_ok E -> inv E w -> run E C w tr w' ->
  wdat w !! nft = Some (DMint m) -> m_authority m = Some au -> pda_of E PMetadata au = true -> plain E nft = true ->
  exists m', wdat w' !! nft = Some (DMint m') /\ m_authority m' = Some au /\ m_supply m' <= m_supply m.
Proof.
  intros HE Hi Hr Hm Ha Hp Hpl. induction Hr as [|tr w1 a evs w2 Hr IH Hs]; [exists m; split_and!; [done..|lia]|].
  destruct IH as (m1 & Hm1 & Ha1 & Hle). pose proof (run_inv _ _ _ _ _ HE Hi Hr) as Hi1.
  destruct (sk_sealed _ _ _ _ (step_keeps _ _ _ _ _ _ HE (inv_sane _ _ Hi1) Hs) _ _ _ Hm1 Ha1 Hp Hpl) as (m2 & H2 & _ & _ & A2 & L2).
  exists m2. split_and!; [done..|lia].
Qed.

(** The supply of a stream's NFT never grows. *)
Theorem C64_supply : forall E w w' k nft s,
  env_ok E -> reachable E w -> stream_at E w k nft s -> later E w w' -> supply w' nft <= supply w nft.
Proof.
  intros E w w' k nft s HE Hr [Hk [b Hb]] [tr Hrun]. pose proof (reachable_inv _ _ HE Hr) as Hi.
  destruct (si_nft _ _ _ _ (li_stream _ _ (inv_lockup _ _ Hi) _ _ Hk)) as (n1 & b1 & m & a1 & N1 & _ & Hm & Ha & Hp & _).
  destruct (fpa_fun _ _ _ _ _ _ _ N1 Hb) as [-> _].
  destruct (run_sealed _ _ _ _ _ _ _ _ HE Hi Hrun Hm Ha Hp (eo_nft _ HE _ (proj1 (fpa_pda _ _ _ _ _ HE Hb)))) as (m' & Hm' & _ & Hle). unfold supply. by rewrite Hm, Hm'.
Qed.

(** Once the NFT is burned (its supply is 0), no withdrawal from the stream ever succeeds again, whoever asks for it,
    unless the address hash collides. *)
Theorem C64_no_withdrawal : forall E w tr ws w1 k nft s sg ix a w2 evs s1,
  env_ok E -> reachable E w -> key_ok (tprog_id E SplToken) -> key_ok (tprog_id E Token2022) ->
  stream_at E w k nft s -> supply w nft = 0 -> later E w w1 -> history_via E any_clock tr ws w1 ->
  is_withdraw ix a -> wa_stream a = k -> wdat w1 !! k = Some (DStream s1) -> lockup_exec E sg ix w1 = Ok (w2, evs) ->
  nft_address_collision E ws w1 s1 a.
Proof.
  intros E w tr ws w1 k nft s sg ix a w2 evs s1 HE Hr K1 K2 Hs H0 Hl Hvia Hix Ha Hk1 Hx.
  pose proof (reachable_later _ _ _ Hr Hl) as Hr1.
  destruct (withdraw_holder _ _ _ _ _ _ _ _ _ _ _ HE Hvia K1 K2 Hk1 Hix Ha Hx) as [?|(n1 & nt & [_ [c1 N1]] & Hnt & Hm & Hq & _)]; [done|exfalso].
  pose proof (C64_supply _ _ _ _ _ _ HE Hr Hs Hl) as Hle. rewrite H0 in Hle.
  destruct (later_stream _ _ _ _ _ _ HE (reachable_inv _ _ HE Hr) Hl Hs) as (s1' & [Hk1' [b' Hb']] & _).
  rewrite Hk1 in Hk1'. injection Hk1' as <-. destruct (fpa_fun _ _ _ _ _ _ _ N1 Hb') as [-> _].
  pose proof (inv_sane _ _ (reachable_inv _ _ HE Hr1)) as Hsn. destruct (fpa_pda _ _ _ _ _ HE Hb') as [Hpda _].
  pose proof (ts_supply _ _ Hsn _ Hpda) as Hts. rewrite total_balance_sum in Hts.
  pose proof (tok_sum_one (wdat w1) nft _ nt (fun k t H => proj1 (ts_range _ _ Hsn k t H)) Hnt Hm). lia.
Qed.

(** So from then on what has been withdrawn stays what it is, unless a withdrawal that happened is a collision; the vault
    still covers everything that is not refunded. *)
Definition withdrawal_collision (E : env) (ws : list world) (k : key) (tr : trace) (ws1 : list world) : Prop :=
  exists sg ix a evs w1 s1, (ALockup sg ix, evs) ∈ tr /\ is_withdraw ix a /\ wa_stream a = k /\
    w1 ∈ ws1 /\ wdat w1 !! k = Some (DStream s1) /\ is_ok (lockup_exec E sg ix w1) = true /\ nft_address_collision E ws w1 s1 a.
Lemma collision_mono E ws ws' w s a : (forall x, x ∈ ws -> x ∈ ws') -> nft_address_collision E ws w s a -> nft_address_collision E ws' w s a.
Proof.
  intros Hi [H|(nt & o & b & b' & H1 & H2 & H3)]; [left; exact H|right].
  exists nt, o, b, b'. split; [exact H1|]. split; [exact (made_for_mono _ _ _ _ _ _ Hi H2)|exact H3].
Qed.
Theorem C64_payouts_over : forall E tr ws w tr' ws' w' k nft s,
  env_ok E -> history_via E any_clock tr ws w -> key_ok (tprog_id E SplToken) -> key_ok (tprog_id E Token2022) ->
  stream_at E w k nft s -> supply w nft = 0 -> passed E any_clock w tr' ws' w' ->
  withdrawal_collision E (ws ++ ws') k tr' ws' \/
  exists s' v, wdat w' !! k = Some (DStream s') /\ withdrawn (s_amounts s') = withdrawn (s_amounts s) /\
    vault_of E w' k s' v /\
    (plain E (s_mint s') = true ->
     deposited (s_amounts s') - withdrawn (s_amounts s) - refunded (s_amounts s') <= balance w' v).
Proof.
  intros E tr ws w tr' ws' w' k nft s HE Hvia K1 K2 Hs H0 Hp.
  assert (reachable E w) as Hr by (exists tr; exact (via_history _ _ _ _ _ Hvia)).
  assert (withdrawal_collision E (ws ++ ws') k tr' ws' \/
    exists s', wdat w' !! k = Some (DStream s') /\ withdrawn (s_amounts s') = withdrawn (s_amounts s)) as [?|(s' & Hk' & HP)]; [|by left|].
  - induction Hp as [|tr' ws' w1 a evs w2 Hp IH Hst]; [right; exists s; split; [apply Hs|done]|].
    destruct IH as [(sg & ix & a' & evs' & w3 & s3 & C1 & C2 & C3 & C4 & C5 & C6 & C7)|(s1 & Hk1 & HP)].
    { left. exists sg, ix, a', evs', w3, s3. split; [apply elem_of_app; by left|]. split; [exact C2|]. split; [exact C3|].
      split; [apply elem_of_app; by left|]. split; [exact C5|]. split; [exact C6|]. revert C7. apply collision_mono.
      intros x Hx. apply elem_of_app in Hx as [Hx|Hx]; apply elem_of_app; [by left|right; apply elem_of_app; by left]. }
    destruct (via_app _ _ _ _ _ _ _ _ Hvia Hp) as [Hvia1 _].
    assert (later E w w1) as Hl by (exists tr'; exact (passed_run _ _ _ _ _ _ Hp)).
    pose proof (reachable_inv _ _ HE (reachable_later _ _ _ Hr Hl)) as Hi1.
    destruct (step_stream _ _ _ _ _ _ _ _ HE (inv_sane _ _ Hi1) Hst Hk1) as (s2 & Hk2 & Hch).
    destruct Hch as [(sg & ix & -> & Hsg & Hx & _ & Hch)|(_ & -> & _)]; [|right; exists s1; done].
    destruct Hch as [ix _|a st _ _ _ _ _ _ _|a m vt dt st _ _ _|ix a am tr1 m nt s2 vt dt fee wd Hix _ Ha _ _]; [right; eexists; split; [exact Hk2|exact HP]..|].
    assert (is_withdraw ix a) as Hiw by (destruct Hix as [->|[-> _]]; [right; by exists am|by left]).
    left. exists sg, ix, a, evs, w1, s1. split; [apply elem_of_app; right; by apply elem_of_list_singleton|]. split; [exact Hiw|]. split; [exact Ha|].
    split; [apply elem_of_app; left; exact (passed_last _ _ _ _ _ _ Hp)|]. split; [exact Hk1|]. split; [by rewrite Hx|].
    apply (collision_mono _ (ws ++ tail ws')).
    { intros x Hxx. apply elem_of_app in Hxx as [Hxx|Hxx]; apply elem_of_app; [by left|right]. apply elem_of_app. left. destruct ws'; [done|]. by right. }
    eapply (C64_no_withdrawal E w _ _ w1 k nft s sg ix a); [exact HE|exact Hr|exact K1|exact K2|exact Hs|exact H0|exact Hl|exact Hvia1|exact Hiw|exact Ha|exact Hk1|exact Hx].
  - right. assert (reachable E w') as Hr' by (apply (reachable_later _ _ _ Hr); exists tr'; exact (passed_run _ _ _ _ _ _ Hp)).
    destruct (C08_solvent _ _ _ _ HE Hr' Hk') as (v & Hv & Hge). exists s', v. rewrite <- HP. done.
Qed.

(** ** Example: the recipient of stream 1 burns the NFT. *)
Definition burn1 (k : key) (t : tokacc) (m : mint) (w : world) : world :=
  set_dat k (DToken (with_amount t (t_amount t - 1)))
    (set_dat (t_mint t) (DMint (Mint (m_prog m) (m_supply m - 1) (m_decimals m) (m_authority m) (m_freeze m))) w).
Lemma others_burn E w k t m : token_sane E w -> keys_sane w -> wdat w !! k = Some (DToken t) -> wdat w !! t_mint t = Some (DMint m) ->
  1 <= t_amount t -> pda_of E PLockup (t_owner t) = false -> pda_of E PMerkle (t_owner t) = false ->
  others_step E w (burn1 k t m w).
Proof.
  intros Hs Hks Hk Hm Hn O1 O2. assert (t_mint t <> k) as Hne by (intros He; rewrite He, Hk in Hm; discriminate).
  set (m' := Mint (m_prog m) (m_supply m - 1) (m_decimals m) (m_authority m) (m_freeze m)).
  assert (forall i, wdat (burn1 k t m w) !! i = if decide (i = k) then Some (DToken (with_amount t (t_amount t - 1)))
    else if decide (i = t_mint t) then Some (DMint m') else wdat w !! i) as HD.
  { intros i. unfold burn1. simpl. destruct (decide (i = k)) as [->|Hi]; [by rewrite lookup_insert|].
    rewrite lookup_insert_ne by done. destruct (decide (i = t_mint t)) as [->|Hi2]; [by rewrite lookup_insert|]. by rewrite lookup_insert_ne. }
  assert (forall i, lam (burn1 k t m w) i = lam w i) as HL by done.
  assert (forall p, pda_of E p (t_owner t) = false -> untouched E p w (burn1 k t m w)) as Hunt.
  { intros p Hp. split.
    - intros i d Hi Hd. rewrite HD, HL. destruct (decide (i = k)) as [->|Hi1]; [rewrite Hk in Hi; by injection Hi as <-|].
      destruct (decide (i = t_mint t)) as [->|Hi2]; [rewrite Hm in Hi; by injection Hi as <-|]. split; [done|lia].
    - intros i d. rewrite HD. destruct (decide (i = k)) as [->|Hi1]; [by intros [= <-]|].
      destruct (decide (i = t_mint t)) as [->|Hi2]; [by intros [= <-]|]. done.
    - intros i _ Hi. rewrite HD. destruct (decide (i = k)) as [->|Hi1]; [congruence|].
      destruct (decide (i = t_mint t)) as [->|Hi2]; [congruence|]. done.
    - intros i ti Hi Ho _. rewrite HD. destruct (decide (i = k)) as [->|Hi1]; [rewrite Hk in Hi; injection Hi as <-; congruence|].
      destruct (decide (i = t_mint t)) as [->|Hi2]; [congruence|]. exists ti. split_and!; [done..|lia]. }
  destruct Hs as [H1 H2]. split; [by apply Hunt|by apply Hunt| | | |].
  - intros i mi a Hi Ha Hpa. rewrite HD. destruct (decide (i = k)) as [->|Hi1]; [congruence|].
    destruct (decide (i = t_mint t)) as [->|Hi2]; [|exists mi; split_and!; [done..|lia]].
    rewrite Hm in Hi. injection Hi as <-. exists m'. unfold m'. simpl. split_and!; [done..|lia].
  - split.
    + intros i ti. rewrite HD. destruct (decide (i = k)) as [->|Hi1].
      * intros [= <-]. specialize (H1 _ _ Hk). simpl. lia.
      * destruct (decide (i = t_mint t)) as [->|Hi2]; [discriminate|]. apply H1.
    + intros i Hi. specialize (H2 i Hi). rewrite total_balance_sum in *. unfold burn1. cbn [wdat set_dat].
      rewrite (tok_sum_insert_same _ _ _ t); [|by rewrite lookup_insert_ne|done].
      rewrite tok_sum_insert, Hm. cbn [tok_of opt_tok].
      unfold supply in *. rewrite HD. destruct (decide (i = k)) as [->|Hi1].
      * rewrite Hk in H2. destruct (t_mint t =? k) eqn:Heq; [apply Z.eqb_eq in Heq; done|]. lia.
      * destruct (decide (i = t_mint t)) as [->|Hi2].
        -- rewrite Hm in H2. rewrite Z.eqb_refl. simpl. lia.
        -- destruct (t_mint t =? i) eqn:Heq; [apply Z.eqb_eq in Heq; congruence|]. lia.
  - intros i ti. rewrite HD. destruct (decide (i = k)) as [->|Hi1].
    + intros [= <-] _. left. exists t. split; [exact Hk|done].
    + destruct (decide (i = t_mint t)) as [->|Hi2]; [discriminate|]. intros Hi _. left. exists ti. split; [exact Hi|done].
  - intros i ti. rewrite HD. destruct (decide (i = k)) as [->|Hi1].
    + intros [= <-]. exact (Hks _ _ Hk).
    + destruct (decide (i = t_mint t)) as [->|Hi2]; [discriminate|]. apply Hks.
Qed.

Definition nft_acc : key := ata kRecipient (kNft kSender 1) SplToken.
Definition nft_t : tokacc := TokAcc SplToken (kNft kSender 1) kRecipient 1 false.
Definition nft_m : mint := Mint SplToken 1 0 (Some (kEdition (kNft kSender 1))) (Some (kEdition (kNft kSender 1))).
Definition w2_burned : world := burn1 nft_acc nft_t nft_m w2.
(** Before the burn the recipient could withdraw; afterwards nobody can, the sender can still cancel and gets exactly
    what the cancellation would have returned anyway. *)
Example C64_example :
  (exists s, stream_at E0 w2_burned (kStream kSender 1) (kNft kSender 1) s) /\
  reachable E0 w2_burned /\ supply w2_burned (kNft kSender 1) = 0 /\ later E0 w2_burned (T 1600 w2_burned) /\
  is_ok (lockup_exec E0 [kRecipient] (LWithdrawMax (withdraw_to 1 kRecipient)) (T 1600 w2)) = true /\
  is_ok (lockup_exec E0 [kRecipient] (LWithdrawMax (withdraw_to 1 kRecipient)) (T 1600 w2_burned)) = false /\
  evs_of (lockup_exec E0 [kSender] (LCancel (cancel_of 1)) (T 1600 w2_burned)) =
  evs_of (lockup_exec E0 [kSender] (LCancel (cancel_of 1)) (T 1600 w2)) /\
  is_ok (lockup_exec E0 [kSender] (LCancel (cancel_of 1)) (T 1600 w2_burned)) = true.
Proof.
  assert (others_step E0 w2 w2_burned) as Ho.
  { apply others_burn; [exact (E0_sane _ _ w2_hist)|exact (E0_keys _ _ w2_hist)| | | | |]; vm_compute; try reflexivity; discriminate. }
  split; [eexists; split; [vm_compute; reflexivity|exists 255; vm_compute; reflexivity]|].
  split; [eapply reachable_later; [eapply history_reach, w2_hist|]; apply (step_later E0 any_clock _ AOthers [] _); by apply step_others|].
  split; [vm_compute; reflexivity|].
  split; [apply (step_later E0 any_clock _ AOthers [] _); apply step_others; [|done]; apply others_T; [exact (os_token _ _ _ Ho)|exact (os_keys _ _ _ Ho)]|].
  split; [vm_compute; reflexivity|]. split; [vm_compute; reflexivity|]. split; vm_compute; reflexivity.
Qed.

Print Assumptions C64_supply.
Print Assumptions C64_no_withdrawal.
Print Assumptions C64_payouts_over.
