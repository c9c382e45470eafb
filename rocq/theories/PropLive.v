(** C18 - C20: the views predict the instructions, and the instructions people depend on do succeed. *)
From Verif Require Export PropHistory Live.

(** ** What the caller of withdraw has to bring *)

(** [v] is the vault of the stream under token program [tp], not frozen and holding what the stream still owes. The
    vault made at creation is such an account forever, as long as it is not frozen (C08). *)
Definition open_vault (E : env) (w : world) (k : key) (s : stream_data) (tp : tprog) (v : key) : Prop :=
  vault_of E w k s v /\ frozen w v = false /\
  (exists t, wdat w !! v = Some (DToken t) /\ t_prog t = tp) /\
  deposited (s_amounts s) - withdrawn (s_amounts s) - refunded (s_amounts s) <= balance w v.

(** [k] is the associated account of [holder] for the NFT and holds it. *)
Definition holds_nft (E : env) (w : world) (holder nft : key) (tp : tprog) (k : key) : Prop :=
  ata_address E holder nft tp = Ok k /\
  exists t, wdat w !! k = Some (DToken t) /\ t_owner t = holder /\ t_prog t = tp /\ t_amount t = 1.

Record withdraw_ready (E : env) (w : world) (sg : list key) (a : withdraw_accs) (amount fee : Z) (s : stream_data) : Prop := {
  wr_signed : wa_signer a ∈ sg;
  wr_accs : withdraw_accs_ok a = true;
  wr_stream : stream_at E w (wa_stream a) (wa_nft_mint a) s;
  (* the holder of the NFT is named, and receives the tokens or is the one who signs *)
  wr_nft : holds_nft E w (wa_stream_recipient a) (wa_nft_mint a) (wa_nft_tp a) (wa_nft_ata a);
  wr_who : wa_withdrawal_recipient a = wa_stream_recipient a \/ wa_signer a = wa_stream_recipient a;
  (* the right token, vault and treasury; the fee quoted is [fee] *)
  wr_mint : wa_mint a = s_mint s /\ exists m, wdat w !! wa_mint a = Some (DMint m) /\ m_prog m = wa_tp a;
  wr_vault : open_vault E w (wa_stream a) s (wa_tp a) (wa_vault a);
  wr_fee : withdrawal_fee_in_lamports E (wa_treasury a) (wa_chainlink a) (wa_feed a) w = Ok fee;
  (* the destination can take the tokens, and the signer can pay for it and for the fee *)
  wr_dest : can_receive E w (wa_signer a) (wa_dest a) (wa_withdrawal_recipient a) (wa_mint a) (wa_tp a) amount fee;
  (* the token does not refuse the transfer *)
  wr_token : token_allows E w (wa_mint a) (wa_vault a) (wa_dest a) amount }.

Lemma fee_view_inv E t p f w fee : withdrawal_fee_in_lamports E t p f w = Ok fee ->
  exists tr, wdat w !! t = Some (DLockupTreasury tr) /\ create_program_address E PLockup [s_TREASURY] (tr_bump tr) = Some t /\
    p = tr_chainlink_program tr /\ f = tr_chainlink_feed tr /\ convert_usd_fee_to_lamports (withdrawal_fee_usd E) p f w = Ok fee.
Proof.
  unfold withdrawal_fee_in_lamports. intros H. inv_all H. loads. exists x. split_and!; done.
Qed.
Lemma fee_view_nonneg E t p f w fee : env_ok E -> withdrawal_fee_in_lamports E t p f w = Ok fee -> 0 <= fee.
Proof.
  intros HE (tr & _ & _ & _ & _ & H)%fee_view_inv. eapply fee_nonneg; [|exact H]. apply (eo_fees _ HE).
Qed.

Lemma withdraw_live E w sg a amount fee s : env_ok E -> inv E w ->
  withdrawn (s_amounts s) <= entitled s (get_current_time w) ->
  withdraw_ready E w sg a amount fee s -> 1 <= amount <= entitled s (get_current_time w) - withdrawn (s_amounts s) ->
  exists w', lockup_exec E sg (LWithdraw a amount) w = Ok (w', [EvWithdraw (wa_mint a) fee (wa_stream a) (wa_nft_mint a) amount]).
Proof.
  intros HE Hi Hle R Ham. pose proof (now_range w) as Hnow.
  destruct R as [Rsg Racc Rst [Rna (nt & Rnt & Rno & Rnp & Rn1)] Rwho [Rmi (m & Rm & Rmp)] [(vt & Rv & Rvo & Rvm & Rva) [Rfz [(vt' & Rv' & Rvp) Rbk]]] Rfee Rdest Rtok].
  rewrite Rv in Rv'. injection Rv' as <-. unfold frozen in Rfz. unfold balance in Rbk. rewrite Rv in Rfz, Rbk.
  pose proof (fee_view_nonneg _ _ _ _ _ _ HE Rfee) as Hf0.
  destruct (fee_view_inv _ _ _ _ _ _ Rfee) as (tr & Htr & Htra & Hcp & Hcf & Hconv).
  pose proof (view_at _ _ _ _ _ Hi Rst) as Hv. apply stream_view_inv in Hv as (Hst & (nm & Hnm) & Hsa).
  pose proof (inv_stream_ok _ _ _ _ Hi Hst) as Hok. pose proof (entitled_bounds s (get_current_time w) Hok) as Heb.
  assert (amount <= U64_MAX) as Hamx by (destruct Hok; lia).
  destruct (init_ata_live E _ _ _ _ _ w m amount fee Hf0 Hamx Rm Rmp Rdest) as (w1 & t & Hi1 & Hds & Hdt & To & Tm & Tp & Tf & Tr & Tc).
  assert (get_current_time w1 = get_current_time w) as Hn1 by (apply now_same; apply (ds_clock _ _ _ Hds)).
  assert (s_depleted s = false) as Hdep.
  { destruct (s_depleted s) eqn:Hd; [|done]. exfalso. unfold entitled in Ham. rewrite Hd in Ham. lia. }
  assert (exists s', stream_withdraw s amount = Ok s' /\ s_bump s' = s_bump s) as (s' & Hs' & Hb').
  { unfold stream_withdraw. rewrite u64_add_le by (destruct Hok; lia). cbn [rbind deposited refunded].
    rewrite u64_sub_le by (destruct Hok; lia). cbn [rbind]. eexists. split; [done|]. done. }
  assert (convert_usd_fee_to_lamports (withdrawal_fee_usd E) (wa_chainlink a) (wa_feed a) (set_dat (wa_stream a) (DStream s') w1) = Ok fee) as Hc1.
  { rewrite (oracle_after _ _ _ _ _ _ _ _ _ _ Hds Hdt Hst) by done. exact Hconv. }
  destruct (charge_fee_live _ _ _ (wa_signer a) (wa_treasury a) _ _ Hc1) as (w2 & Hw2).
  { destruct Tc as [?|[Td Tl]]; [by left|]. destruct (decide (fee <= 0)) as [?|Hpos]; [by left|]. right. split; [|done].
    rewrite wdat_set_dat. rewrite lookup_insert_ne; [done|]. intros Heq. rewrite <- Heq in Td. rewrite (ds_dat _ _ _ Hds) in Td.
    rewrite lookup_ins in Td. case_decide; [done|]. congruence. }
  pose proof (charge_fee_ok _ _ _ _ _ _ _ _ Hw2) as ([A2 B2 _ _] & _).
  rewrite wdat_set_dat, (ds_dat _ _ _ Hds) in A2.
  assert (wa_stream a <> wa_dest a) as N1 by (intros Heq; rewrite Heq in Hst; destruct Hdt; congruence).
  assert (wa_stream a <> wa_vault a) as N2 by (intros Heq; rewrite Heq in Hst; congruence).
  assert (wa_stream a <> wa_mint a) as N3 by (intros Heq; rewrite Heq in Hst; congruence).
  assert (wa_dest a <> wa_mint a) as N4 by (intros Heq; rewrite Heq in Hdt; destruct Hdt; congruence).
  destruct (transfer_live E (wa_tp a) (wa_vault a) (wa_dest a) (wa_stream a) (wa_mint a) amount w2 vt t m) as (w3 & Hw3).
  { rewrite A2. rewrite lookup_insert_ne by exact N2. rewrite lookup_ins. case_decide as Hd; [|exact Rv].
    rewrite Hd in Hdt. rewrite Rv in Hdt. by destruct Hdt as [[= <-]|]. }
  { rewrite A2. rewrite lookup_insert_ne by exact N1. by rewrite lookup_insert. }
  { rewrite A2. rewrite lookup_insert_ne by exact N3. by rewrite lookup_insert_ne by exact N4. }
  { done. } { lia. } { unfold token_allows. rewrite B2, wclock_set_dat, (ds_clock _ _ _ Hds). exact Rtok. }
  { done. } { done. } { done. } { done. } { done. } { lia. } { congruence. } { done. } { done. } { done. }
  exists w3. unfold lockup_exec, lockup_ix_ok. rewrite Racc.
  assert (is_u64 amount = true) as -> by (unfold is_u64; apply andb_true_intro; split; apply Z.leb_le; lia).
  cbn [andb ensure rbind]. unfold withdraw, withdraw_accounts.
  rewrite (check_signer_live _ _ Rsg), (proj2 (load_lockup_treasury_ok _ _ _) Htr), (proj2 (load_mint_ok _ _ _) Rm),
    (proj2 (load_token_ok _ _ _) Rnt), (proj2 (load_stream_ok _ _ _) Hst), (proj2 (load_token_ok _ _ _) Rv), (proj2 (load_mint_ok _ _ _) Hnm).
  cbn [rbind]. rewrite Hi1. cbn [rbind].
  assert (((wa_withdrawal_recipient a =? wa_stream_recipient a)
     || (negb (wa_withdrawal_recipient a =? wa_stream_recipient a) && (wa_signer a =? wa_stream_recipient a))) = true) as ->.
  { destruct (Z.eqb_spec (wa_withdrawal_recipient a) (wa_stream_recipient a)); [done|]. destruct Rwho as [?|H]; [done|]. by rewrite H, Z.eqb_refl. }
  cbn [ensure rbind]. rewrite (check_seeds_bump_live _ _ _ _ _ Htra). rewrite (check_address_live _ _ Rmi).
  rewrite (check_ata_live _ _ _ _ _ _ Rnp Rno Rna). rewrite Rn1, Z.eqb_refl. cbn [ensure rbind].
  rewrite (check_seeds_bump_live _ _ _ _ _ Hsa). rewrite (check_ata_live E (wa_vault a) vt (wa_stream a) (wa_mint a) (wa_tp a)); [|done|done|].
  2:{ rewrite Rmi, <- Rvp. exact Rva. }
  rewrite (check_address_live _ _ Hcp), (check_address_live _ _ Hcf). cbn [rbind].
  unfold withdraw_handler, get_withdrawable_amount. rewrite Hn1. rewrite (streamed_entitled s) by done. cbn [rbind].
  rewrite u64_sub_le by lia. cbn [rbind]. unfold check_withdraw. rewrite Hdep.
  rewrite (proj2 (Z.eqb_neq amount 0)) by lia. rewrite (proj2 (Z.ltb_ge _ amount)) by lia. cbn [rbind].
  rewrite Hs'. cbn [rbind]. rewrite Hw2. cbn [rbind]. rewrite Hb', Hsa. rewrite bool_decide_true by done. rewrite Hw3. done.
Qed.

(** ** C19 *)
Theorem C19_withdraw_succeeds : forall E w sg a amount fee s wd,
  env_ok E -> reachable_fwd E w -> withdraw_ready E w sg a amount fee s ->
  withdrawable_amount_of E (wa_stream a) (wa_nft_mint a) w = Ok wd -> 1 <= amount <= wd ->
  exists w' evs, lockup_exec E sg (LWithdraw a amount) w = Ok (w', evs).
Proof.
  intros E w sg a amount fee s wd HE Hr R Hwd Ham. pose proof (reachable_inv _ _ HE (fwd_reachable _ _ Hr)) as Hi.
  pose proof (wr_stream _ _ _ _ _ _ _ R) as Hs. pose proof (view_at _ _ _ _ _ Hi Hs) as Hv.
  destruct (withdrawable_view_inv _ _ _ _ _ _ Hv (inv_stream_ok _ _ _ _ Hi (proj1 Hs)) Hwd) as [-> ?].
  destruct (withdraw_live E w sg a amount fee s HE Hi ltac:(lia) R Ham) as [w' ?]. by eexists _, _.
Qed.

Theorem C19_withdraw_max_succeeds : forall E w sg a fee s wd,
  env_ok E -> reachable_fwd E w -> withdraw_ready E w sg a wd fee s ->
  withdrawable_amount_of E (wa_stream a) (wa_nft_mint a) w = Ok wd -> 1 <= wd ->
  exists w' evs, lockup_exec E sg (LWithdrawMax a) w = Ok (w', evs).
Proof.
  intros E w sg a fee s wd HE Hr R Hwd Hpos.
  destruct (C19_withdraw_succeeds E w sg a wd fee s wd HE Hr R Hwd ltac:(lia)) as (w' & evs & Hx).
  exists w', evs. by rewrite (C11_withdraw_max_is_withdraw E sg a w wd HE (fwd_reachable _ _ Hr) Hwd).
Qed.
(** No part of the deposit is locked for good: from the end of the schedule on everything that was not refunded or
    withdrawn can be withdrawn; on a canceled stream this holds at once. *)
Theorem C19_everything_in_the_end : forall E w k nft s,
  env_ok E -> reachable_fwd E w -> stream_at E w k nft s ->
  t_end (s_times s) <= wclock w \/ s_canceled s = true ->
  withdrawable_amount_of E k nft w = Ok (deposited (s_amounts s) - refunded (s_amounts s) - withdrawn (s_amounts s)).
Proof.
  intros E w k nft s HE Hr Hs Hend. pose proof (reachable_inv _ _ HE (fwd_reachable _ _ Hr)) as Hi.
  pose proof (view_at _ _ _ _ _ Hi Hs) as Hv. pose proof (inv_stream_ok _ _ _ _ Hi (proj1 Hs)) as Hok.
  rewrite (withdrawable_view _ _ _ _ _ Hv Hok); [|exact (reachable_fwd_ok _ _ HE Hr _ _ (proj1 Hs))].
  rewrite (now_clock w) by apply Hr. f_equal. unfold entitled.
  pose proof (so_depleted _ Hok) as Hd. pose proof (so_canceled _ Hok) as Hc. pose proof (so_refunded _ Hok) as Hr0.
  destruct (s_depleted s); [destruct Hd as [Hd _]; specialize (Hd eq_refl); lia|].
  destruct (s_canceled s); [lia|]. destruct Hend as [Hend|]; [|done].
  assert (refunded (s_amounts s) = 0) as ->.
  { destruct (decide (0 < refunded (s_amounts s))) as [H|]; [|lia]. apply Hc in H. done. }
  unfold stream_schedule, schedule. destruct (so_terms _ Hok) as [? ? ? Hcl ?].
  rewrite (proj2 (Z.ltb_ge _ _)) by lia. rewrite (proj2 (Z.ltb_ge _ _)) by (destruct Hcl; lia). rewrite (proj2 (Z.leb_le _ _)) by lia. lia.
Qed.

(** ** C20 *)
Record cancel_ready (E : env) (w : world) (sg : list key) (a : cancel_accs) (s : stream_data) (refund : Z) : Prop := {
  xr_signed : xa_sender a ∈ sg;
  xr_accs : lockup_ix_ok (LCancel a) = true;
  xr_stream : stream_at E w (xa_stream a) (xa_nft_mint a) s;
  xr_sender : xa_sender a = s_sender s;
  xr_mint : xa_mint a = s_mint s /\ exists m, wdat w !! xa_mint a = Some (DMint m) /\ m_prog m = xa_tp a;
  xr_vault : open_vault E w (xa_stream a) s (xa_tp a) (xa_vault a);
  xr_dest : can_receive E w (xa_sender a) (xa_sender_ata a) (xa_sender a) (xa_mint a) (xa_tp a) refund 0;
  xr_token : token_allows E w (xa_mint a) (xa_vault a) (xa_sender_ata a) refund }.

Lemma cancel_live E w sg a s : env_ok E -> inv E w ->
  withdrawn (s_amounts s) <= entitled s (get_current_time w) ->
  s_cancelable s = true -> entitled s (get_current_time w) < deposited (s_amounts s) ->
  cancel_ready E w sg a s (deposited (s_amounts s) - entitled s (get_current_time w)) ->
  exists w' evs, lockup_exec E sg (LCancel a) w = Ok (w', evs).
Proof.
  intros HE Hi Hle Hca Hlt R. pose proof (now_range w) as Hnow.
  destruct R as [Rsg Racc Rst Rse [Rmi (m & Rm & Rmp)] [(vt & Rv & Rvo & Rvm & Rva) [Rfz [(vt' & Rv' & Rvp) Rbk]]] Rdest Rtok].
  rewrite Rv in Rv'. injection Rv' as <-. unfold frozen in Rfz. unfold balance in Rbk. rewrite Rv in Rfz, Rbk.
  pose proof (view_at _ _ _ _ _ Hi Rst) as Hv. apply stream_view_inv in Hv as (Hst & (nm & Hnm) & Hsa).
  pose proof (inv_stream_ok _ _ _ _ Hi Hst) as Hok. pose proof (entitled_bounds s (get_current_time w) Hok) as Heb.
  assert (s_canceled s = false /\ s_depleted s = false) as [Hnc Hnd].
  { pose proof (so_flags _ Hok) as Hf. destruct (s_canceled s), (s_depleted s); try done; rewrite Hf in Hca by tauto; done. }
  assert (refunded (s_amounts s) = 0) as Hr0.
  { pose proof (so_canceled _ Hok) as Hc. pose proof (so_refunded _ Hok). destruct (decide (0 < refunded (s_amounts s))) as [H0|]; [|lia].
    apply Hc in H0. congruence. }
  set (amount := deposited (s_amounts s) - entitled s (get_current_time w)) in *.
  assert (amount <= U64_MAX) as Hamx by (destruct Hok; lia).
  destruct (init_ata_live E _ _ _ _ _ w m amount 0 ltac:(lia) Hamx Rm Rmp Rdest) as (w1 & t & Hi1 & Hds & Hdt & To & Tm & Tp & Tf & Tr & Tc).
  assert (get_current_time w1 = get_current_time w) as Hn1 by (apply now_same; apply (ds_clock _ _ _ Hds)).
  set (s' := stream_cancel s amount (entitled s (get_current_time w) - withdrawn (s_amounts s))).
  set (w2 := set_dat (xa_stream a) (DStream s') w1).
  assert (wdat w2 = <[xa_stream a:=DStream s']> (<[xa_sender_ata a:=DToken t]> (wdat w))) as A2.
  { unfold w2. by rewrite wdat_set_dat, (ds_dat _ _ _ Hds). }
  assert (xa_stream a <> xa_sender_ata a) as N1 by (intros Heq; rewrite Heq in Hst; destruct Hdt; congruence).
  assert (xa_stream a <> xa_vault a) as N2 by (intros Heq; rewrite Heq in Hst; congruence).
  assert (xa_stream a <> xa_mint a) as N3 by (intros Heq; rewrite Heq in Hst; congruence).
  assert (xa_sender_ata a <> xa_mint a) as N4 by (intros Heq; rewrite Heq in Hdt; destruct Hdt; congruence).
  destruct (transfer_live E (xa_tp a) (xa_vault a) (xa_sender_ata a) (xa_stream a) (xa_mint a) amount w2 vt t m) as (w3 & Hw3).
  { rewrite A2. rewrite lookup_insert_ne by exact N2. rewrite lookup_ins. case_decide as Hd; [|exact Rv].
    rewrite Hd in Hdt. rewrite Rv in Hdt. by destruct Hdt as [[= <-]|]. }
  { rewrite A2. rewrite lookup_insert_ne by exact N1. by rewrite lookup_insert. }
  { rewrite A2. rewrite lookup_insert_ne by exact N3. by rewrite lookup_insert_ne by exact N4. }
  { done. } { unfold amount. lia. } { unfold token_allows, w2. rewrite wclock_set_dat, (ds_clock _ _ _ Hds). exact Rtok. }
  { done. } { done. } { done. } { done. } { done. } { unfold amount. lia. } { congruence. } { done. } { done. } { done. }
  eexists w3, _. unfold lockup_exec. rewrite Racc. cbn [ensure rbind]. unfold Lockup.cancel.
  rewrite (check_signer_live _ _ Rsg), (proj2 (load_mint_ok _ _ _) Rm),
    (proj2 (load_stream_ok _ _ _) Hst), (proj2 (load_token_ok _ _ _) Rv), (proj2 (load_mint_ok _ _ _) Hnm).
  cbn [rbind]. rewrite Hi1. cbn [rbind].
  rewrite (check_address_live _ _ Rse), (check_address_live _ _ Rmi), (check_seeds_bump_live _ _ _ _ _ Hsa). cbn [rbind].
  rewrite (check_ata_live E (xa_vault a) vt (xa_stream a) (xa_mint a) (xa_tp a)); [|done|done|].
  2:{ rewrite Rmi, <- Rvp. exact Rva. }
  cbn [rbind]. rewrite Hn1. rewrite (streamed_entitled s) by done. cbn [rbind]. unfold check_cancel. rewrite Hnc, Hnd, Hca. cbn [negb].
  rewrite (proj2 (Z.leb_gt _ _)) by lia. cbn [rbind]. rewrite u64_sub_le by lia. cbn [rbind]. rewrite u64_sub_le by lia. cbn [rbind].
  fold amount. fold s'. fold w2. rewrite Hsa. rewrite bool_decide_true by done. rewrite Hw3. cbn [rbind]. reflexivity.
Qed.

Theorem C20_cancel_succeeds : forall E w sg a s x,
  env_ok E -> reachable_fwd E w -> streamed_amount_of E (xa_stream a) (xa_nft_mint a) w = Ok x ->
  s_cancelable s = true -> x < deposited (s_amounts s) ->
  cancel_ready E w sg a s (deposited (s_amounts s) - x) ->
  exists w' evs, lockup_exec E sg (LCancel a) w = Ok (w', evs).
Proof.
  intros E w sg a s x HE Hr Hx Hca Hlt R. pose proof (reachable_inv _ _ HE (fwd_reachable _ _ Hr)) as Hi.
  pose proof (xr_stream _ _ _ _ _ _ R) as Hs. pose proof (view_at _ _ _ _ _ Hi Hs) as Hv.
  rewrite (streamed_view _ _ _ _ _ Hv (inv_stream_ok _ _ _ _ Hi (proj1 Hs))) in Hx. injection Hx as <-.
  apply (cancel_live E w sg a s HE Hi); [|done..]. exact (reachable_fwd_ok _ _ HE Hr _ _ (proj1 Hs)).
Qed.
(** The sender can also give up the right to cancel, as long as it is worth anything. *)
Theorem C20_renounce_succeeds : forall E w sg a s x,
  env_ok E -> reachable_fwd E w -> stream_at E w (ra_stream a) (ra_nft_mint a) s ->
  streamed_amount_of E (ra_stream a) (ra_nft_mint a) w = Ok x ->
  s_cancelable s = true -> x < deposited (s_amounts s) ->
  lockup_ix_ok (LRenounce a) = true -> ra_sender a ∈ sg -> ra_sender a = s_sender s ->
  exists w' evs, lockup_exec E sg (LRenounce a) w = Ok (w', evs).
Proof.
  intros E w sg a s x HE Hr Hs Hx Hca Hlt Hok Hsg Hse. pose proof (reachable_inv _ _ HE (fwd_reachable _ _ Hr)) as Hi.
  pose proof (view_at _ _ _ _ _ Hi Hs) as Hv. pose proof (inv_stream_ok _ _ _ _ Hi (proj1 Hs)) as Hso.
  rewrite (streamed_view _ _ _ _ _ Hv Hso) in Hx. injection Hx as <-.
  apply stream_view_inv in Hv as (Hst & (nm & Hnm) & Hsa).
  eexists _, _. unfold lockup_exec. rewrite Hok. cbn [ensure rbind]. unfold renounce.
  rewrite (check_signer_live _ _ Hsg), (proj2 (load_stream_ok _ _ _) Hst), (proj2 (load_mint_ok _ _ _) Hnm). cbn [rbind].
  rewrite (check_address_live _ _ Hse), (check_seeds_bump_live _ _ _ _ _ Hsa). cbn [rbind].
  rewrite (streamed_entitled s) by (done || apply now_range). cbn [rbind]. unfold check_renounce. rewrite Hca. cbn [negb orb].
  rewrite (proj2 (Z.leb_gt _ _)) by lia. cbn [rbind]. reflexivity.
Qed.

(** ** C18 *)

(** The views answer whenever they are given the stream's accounts (and, C10/Observe, only then, unless the address
    hash collides). *)
Theorem C18_views_answer : forall E w k nft s,
  env_ok E -> reachable_fwd E w -> stream_at E w k nft s ->
  stream_view E k nft w = Ok s /\
  exists x y z st, streamed_amount_of E k nft w = Ok x /\ withdrawable_amount_of E k nft w = Ok y /\
    refundable_amount_of E k nft w = Ok z /\ status_of_view E k nft w = Ok st /\
    y = x - withdrawn (s_amounts s) /\ 0 <= y /\ 0 <= z /\ x + z <= deposited (s_amounts s) - refunded (s_amounts s).
Proof.
  intros E w k nft s HE Hr Hs. pose proof (reachable_inv _ _ HE (fwd_reachable _ _ Hr)) as Hi.
  pose proof (view_at _ _ _ _ _ Hi Hs) as Hv. pose proof (inv_stream_ok _ _ _ _ Hi (proj1 Hs)) as Hok. split; [done|].
  pose proof (reachable_fwd_ok _ _ HE Hr _ _ (proj1 Hs)) as Hle. pose proof (entitled_bounds s (get_current_time w) Hok) as Hb.
  assert (exists st, status_of_view E k nft w = Ok st) as [st Hst].
  { unfold status_of_view. rewrite Hv. cbn [rbind]. unfold status_of.
    rewrite (streamed_entitled s) by (done || apply now_range). ifs; cbn [rbind]; ifs; by eexists. }
  eexists _, _, _, st. split; [by apply (streamed_view _ _ _ _ s)|]. split; [by apply (withdrawable_view _ _ _ _ s)|].
  split; [by apply (refundable_view _ _ _ _ s)|]. split; [done|]. split; [done|]. split; [lia|].
  assert (s_cancelable s = true -> refunded (s_amounts s) = 0) as Hr0.
  { intros Hc. pose proof (so_canceled _ Hok) as Hcc. pose proof (so_refunded _ Hok) as H0. pose proof (so_flags _ Hok) as Hf.
    destruct (decide (0 < refunded (s_amounts s))) as [Hp|]; [|lia]. apply Hcc in Hp. rewrite Hf in Hc by tauto. done. }
  pose proof (so_refunded _ Hok). destruct (s_cancelable s) eqn:Hc; cbn [andb]; [|lia]. specialize (Hr0 eq_refl).
  destruct (s_depleted s); cbn [negb]; lia.
Qed.
(** refundable_amount_of is what a cancel at the same instant pays the sender: exactly that number ... *)
Theorem C18_refundable_is_refund : forall E sg a w w' evs,
  env_ok E -> reachable E w -> lockup_exec E sg (LCancel a) w = Ok (w', evs) ->
  exists r q, refundable_amount_of E (xa_stream a) (xa_nft_mint a) w = Ok r /\ 0 < r /\
    withdrawable_amount_of E (xa_stream a) (xa_nft_mint a) w = Ok q /\
    evs = [EvCancel (xa_mint a) q r (xa_stream a) (xa_nft_mint a)] /\
    (xa_sender a <> xa_stream a -> plain E (xa_mint a) = true ->
     balance w' (xa_sender_ata a) = balance w (xa_sender_ata a) + r).
Proof.
  intros E sg a w w' evs HE Hr Hx. pose proof (exec_cancel_inv _ _ _ _ _ _ Hx) as (m & s & vt & dt & st & F).
  pose proof (cancel_stream_view _ _ _ _ _ _ _ _ _ _ _ F) as Hv. destruct (stream_view_inv _ _ _ _ _ Hv) as (Hk & _).
  pose proof (reachable_stream_ok _ _ _ _ HE Hr Hk) as Hok. destruct F.
  rewrite (streamed_entitled s) in cf_streamed by (done || apply now_range). injection cf_streamed as <-.
  exists (deposited (s_amounts s) - entitled s (get_current_time w)), (entitled s (get_current_time w) - withdrawn (s_amounts s)).
  split; [rewrite (refundable_view _ _ _ _ s) by done; by rewrite cf_cancelable, cf_not_depleted|].
  split; [lia|]. split; [by apply (withdrawable_view _ _ _ _ s)|]. split; [done|].
  intros Hne Hpl. pose proof (payout_exact _ _ _ _ (DStream s) _ _ _ _ _ _ _ _ _ _ _ cf_pay cf_vault cf_stream eq_refl cf_vault_addr ltac:(done)) as Hp.
  apply (pe_moved_plain _ _ _ _ _ _ _ _ _ _ _ _ _ Hpl Hp Hne).
Qed.
(** ... it is 0 exactly when no cancel of the stream can succeed, whoever signs and whatever accounts are passed ... *)
Theorem C18_zero_iff_no_cancel : forall E w k nft s r,
  env_ok E -> reachable_fwd E w -> stream_at E w k nft s -> refundable_amount_of E k nft w = Ok r ->
  (r = 0 -> forall sg a, xa_stream a = k -> exists e, lockup_exec E sg (LCancel a) w = Err e) /\
  (0 < r -> forall sg a, xa_stream a = k -> xa_nft_mint a = nft -> cancel_ready E w sg a s r ->
     exists w' evs, lockup_exec E sg (LCancel a) w = Ok (w', evs)).
Proof.
  intros E w k nft s r HE Hr Hs Hre. pose proof (reachable_inv _ _ HE (fwd_reachable _ _ Hr)) as Hi.
  pose proof (view_at _ _ _ _ _ Hi Hs) as Hv. pose proof (inv_stream_ok _ _ _ _ Hi (proj1 Hs)) as Hok.
  rewrite (refundable_view _ _ _ _ s Hv Hok) in Hre. injection Hre as Hre.
  pose proof (entitled_bounds s (get_current_time w) Hok) as Hb. split.
  - intros -> sg a <-. destruct (lockup_exec E sg (LCancel a) w) as [[w' evs]|e] eqn:Hx; [|by eexists]. exfalso.
    apply exec_cancel_inv in Hx as (m & s1 & vt & dt & st & F). destruct F.
    rewrite (proj1 Hs) in cf_stream. injection cf_stream as <-.
    rewrite cf_cancelable, cf_not_depleted in Hre. cbn [andb negb] in Hre.
    rewrite (streamed_entitled s) in cf_streamed by (done || apply now_range). injection cf_streamed as <-. lia.
  - intros Hpos sg a <- <- R. destruct (s_cancelable s) eqn:Hc; cbn [andb] in Hre; [|lia].
    destruct (s_depleted s) eqn:Hd; cbn [negb] in Hre; [lia|].
    apply (cancel_live E w sg a s HE Hi); [|done|lia|by rewrite Hre]. exact (reachable_fwd_ok _ _ HE Hr _ _ (proj1 Hs)).
Qed.
(** ... and withdraw accepts exactly the amounts 1, ..., withdrawable_amount_of. *)
Theorem C18_withdraw_accepts_exactly : forall E w sg a amount fee s wd,
  env_ok E -> reachable_fwd E w -> withdraw_ready E w sg a amount fee s ->
  withdrawable_amount_of E (wa_stream a) (wa_nft_mint a) w = Ok wd ->
  ((exists w' evs, lockup_exec E sg (LWithdraw a amount) w = Ok (w', evs)) <-> 1 <= amount <= wd).
Proof.
  intros E w sg a amount fee s wd HE Hr R Hwd. split; [|by apply (C19_withdraw_succeeds E w sg a amount fee s wd)].
  intros (w' & evs & Hx). apply exec_withdraw_inv in Hx as (Hpos & _ & tr & m & nt & s1 & s' & vt & dt & fee' & wd' & F).
  pose proof (withdraw_stream_view _ _ _ _ _ _ _ _ _ _ _ _ _ _ _ _ F) as Hv.
  unfold withdrawable_amount_of in Hwd. rewrite Hv in Hwd. cbn [rbind] in Hwd. destruct F.
  rewrite wf_wd in Hwd. injection Hwd as <-. lia.
Qed.

Lemma T_fwd t tr w : history E0 forward_clock tr w -> script_ok E0 [CT t] w = true -> (0 <=? t) && (t <=? U64_MAX) = true ->
  reachable_fwd E0 (T t w).
Proof. intros H Hok Ht. apply (history_fwd E0 (tr ++ script_trace E0 [CT t] w)); [by apply (history_script [CT t])|exact Ht]. Qed.

Example C19_example : exists s, reachable_fwd E0 (T 1400 w1) /\
  withdraw_ready E0 (T 1400 w1) [kRecipient] (withdraw_to 1 kRecipient) 150 0 s /\
  withdrawable_amount_of E0 (kStream kSender 1) (kNft kSender 1) (T 1400 w1) = Ok 362.
Proof.
  eexists. split; [apply (T_fwd 1400 tr1); [apply w1_hist|vm_compute; reflexivity..]|]. split; [|vm_compute; reflexivity]. split.
  - left.
  - vm_compute. reflexivity.
  - split; [vm_compute; reflexivity|]. exists 255. vm_compute. reflexivity.
  - split; [vm_compute; reflexivity|]. eexists. split; [vm_compute; reflexivity|]. split; [|split]; vm_compute; reflexivity.
  - left. reflexivity.
  - split; [vm_compute; reflexivity|]. eexists. split; vm_compute; reflexivity.
  - split; [|split; [|split]].
    + eexists. split; [vm_compute; reflexivity|]. split; [vm_compute; reflexivity|]. split; vm_compute; reflexivity.
    + vm_compute. reflexivity.
    + eexists. split; vm_compute; reflexivity.
    + vm_compute. congruence.
  - vm_compute. reflexivity.
  - split; [vm_compute; reflexivity|]. right. split; [vm_compute; reflexivity|]. split; [vm_compute; congruence|].
    split; [vm_compute; congruence|]. right. split; [vm_compute; reflexivity|]. vm_compute. congruence.
  - vm_compute. congruence.
Qed.
Example C20_example : exists s, reachable_fwd E0 (T 1600 w2) /\
  streamed_amount_of E0 (kStream kSender 1) (kNft kSender 1) (T 1600 w2) = Ok 575 /\
  refundable_amount_of E0 (kStream kSender 1) (kNft kSender 1) (T 1600 w2) = Ok 425 /\
  s_cancelable s = true /\ 575 < deposited (s_amounts s) /\
  cancel_ready E0 (T 1600 w2) [kSender] (cancel_of 1) s (deposited (s_amounts s) - 575).
Proof.
  eexists. split; [apply (T_fwd 1600 tr2); [apply w2_hist|vm_compute; reflexivity..]|].
  split; [vm_compute; reflexivity|]. split; [vm_compute; reflexivity|].
  cut (forall A B C : Prop, C -> A -> B -> A /\ B /\ C); [intros H; apply H; clear H|tauto].
  - split.
    + left.
    + vm_compute. reflexivity.
    + split; [vm_compute; reflexivity|]. exists 255. vm_compute. reflexivity.
    + vm_compute. reflexivity.
    + split; [vm_compute; reflexivity|]. eexists. split; vm_compute; reflexivity.
    + split; [|split; [|split]].
      * eexists. split; [vm_compute; reflexivity|]. split; [vm_compute; reflexivity|]. split; vm_compute; reflexivity.
      * vm_compute. reflexivity.
      * eexists. split; vm_compute; reflexivity.
      * vm_compute. congruence.
    + split; [vm_compute; reflexivity|]. left. eexists. split; [vm_compute; reflexivity|]. split; [vm_compute; reflexivity|].
      split; [vm_compute; reflexivity|]. split; [vm_compute; reflexivity|]. split; [vm_compute; reflexivity|].
      split; [vm_compute; congruence|]. left. done.
    + vm_compute. congruence.
  - vm_compute. reflexivity.
  - vm_compute. reflexivity.
Qed.
(** A stream whose sender gave up cancelation has nothing refundable. *)
Example C18_example : exists s, reachable_fwd E0 w3 /\ stream_at E0 w3 (kStream kSender 2) (kNft kSender 2) s /\
  refundable_amount_of E0 (kStream kSender 2) (kNft kSender 2) w3 = Ok 0 /\
  withdrawable_amount_of E0 (kStream kSender 2) (kNft kSender 2) w3 = Ok 1800.
Proof.
  eexists. split; [apply (history_fwd E0 tr3); [apply w3_hist|vm_compute; reflexivity]|].
  split; [split; [vm_compute; reflexivity|]; exists 255; vm_compute; reflexivity|]. split; vm_compute; reflexivity.
Qed.
