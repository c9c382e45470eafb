(** C53, C54, C57: instructions on one stream at the same instant do not interfere. *)
From Verif Require Export PropLive.

(** ** A payout, address by address *)
Definition credit (fresh : tokacc) (n : Z) (o : option adata) : option adata :=
  match o with
  | Some (DToken t) => Some (DToken (with_amount t (t_amount t + n)))
  | None => Some (DToken (with_amount fresh n))
  | x => x
  end.
Definition pay (own : key) (newd : adata) (vault dest : key) (fresh : tokacc) (n : Z) (D : gmap key adata) (k : key) : option adata :=
  if decide (k = own) then Some newd
  else
    let o := if decide (k = vault) then credit fresh (- n) (D !! k) else D !! k in
    if decide (k = dest) then credit fresh n o else o.

Lemma with_amount_id t : with_amount t (t_amount t) = t.
Proof. by destruct t. Qed.
Lemma payout_pay E w own d0 newd vault dest vt dt amount tp mintk owner auth w' :
  payout_facts E w (wdat w) own newd vault dest vt dt amount tp mintk owner auth w' ->
  wdat w !! vault = Some (DToken vt) -> wdat w !! own = Some d0 -> is_token d0 = false -> plain E mintk = true ->
  forall k, wdat w' !! k = pay own newd vault dest (TokAcc tp mintk owner 0 false) amount (wdat w) k.
Proof.
  intros F Hv Ho Hd0 Hpl k. destruct F as [Fd Fo Fm Fp Fa Fvo Fvm Fvp Fam Froom [Fdat _ _ _]].
  rewrite received_plain in Fdat by exact Hpl.
  assert (own <> vault) as Hov by (intros ->; rewrite Hv in Ho; by injection Ho as <-).
  assert (own <> dest) as Hod.
  { intros ->. destruct Fd as [Fd|[Fd _]]; rewrite Ho in Fd; [|done]. by injection Fd as ->. }
  rewrite Fdat. unfold pay. case_decide as Hko; [subst k; by apply payout_lookup_own|]. cbv zeta.
  destruct (decide (vault = dest)) as [<-|Hvd].
  - destruct (decide (k = vault)) as [->|Hkv]; [|by rewrite payout_lookup_other].
    rewrite payout_lookup_same by done. rewrite Hv. cbn [credit t_amount with_amount].
    replace (t_amount vt + - amount + amount) with (t_amount vt) by lia. by destruct vt.
  - destruct (decide (k = vault)) as [->|Hkv].
    + rewrite decide_False by done. rewrite payout_lookup_vault by done. rewrite Hv. cbn [credit]. by rewrite Z.add_opp_r.
    + destruct (decide (k = dest)) as [->|Hkd]; [|by rewrite payout_lookup_other]. rewrite payout_lookup_dest by done.
      destruct Fd as [Fd|[Fd Hdt]]; rewrite Fd; cbn [credit]; [done|]. rewrite Fo, Fm, Fp in Hdt. by rewrite Hdt.
Qed.

Lemma payout_own E w own d0 newd vault dest vt dt amount tp mintk owner auth w' :
  payout_facts E w (wdat w) own newd vault dest vt dt amount tp mintk owner auth w' ->
  wdat w !! vault = Some (DToken vt) -> wdat w !! own = Some d0 -> is_token d0 = false -> wdat w' !! own = Some newd.
Proof.
  intros F Hv Ho Hd0. destruct F as [Fd Fo Fm Fp Fa Fvo Fvm Fvp Fam Froom [Fdat _ _ _]].
  rewrite Fdat. apply payout_lookup_own.
  - intros ->; rewrite Hv in Ho; by injection Ho as <-.
  - intros ->. destruct Fd as [Fd|[Fd _]]; rewrite Ho in Fd; [|done]. by injection Fd as ->.
Qed.

Lemma credit_comm f a b o : credit f a (credit f b o) = credit f b (credit f a o).
Proof. destruct o as [[]|]; cbn [credit]; try done; do 2 f_equal; unfold with_amount; cbn; f_equal; lia. Qed.
Lemma credit_add f a b o : credit f a (credit f b o) = credit f (a + b) o.
Proof. destruct o as [[]|]; cbn [credit]; try done; do 2 f_equal; unfold with_amount; cbn; f_equal; lia. Qed.
Lemma credit_some f f' n d : credit f n (Some d) = credit f' n (Some d).
Proof. by destruct d. Qed.

(** The token program is that of the mint. *)
Lemma withdraw_prog E sg a n w w' evs m : lockup_exec E sg (LWithdraw a n) w = Ok (w', evs) ->
  wdat w !! wa_mint a = Some (DMint m) -> wa_tp a = m_prog m.
Proof.
  unfold lockup_exec. intros H Hm. inv_all H. unfold withdraw in H. inv_all H.
  match goal with p : (world * stream_data * mint)%type |- _ => destruct p as [[w1 s] m1] end.
  match goal with HA : withdraw_accounts _ _ _ _ = Ok _ |- _ => unfold withdraw_accounts in HA; inv_all HA; injection HA as <- <- <- end.
  unfold withdraw_handler in H. inv_all H. match goal with p : (world * Z)%type |- _ => destruct p as [w3 fee'] end. inv_all H. injection H as <- <-.
  match goal with H : transfer_checked _ _ _ _ _ _ _ _ _ _ = Ok _ |- _ => apply transfer_checked_ok in H as (tf & td & m' & _ & _ & Hmm & _ & _ & Hp & _) end.
  match goal with H : charge_fee _ _ _ _ _ _ = Ok _ |- _ => apply charge_fee_ok in H as ([A _ _ _] & _) end.
  match goal with H : init_ata_if_needed _ _ _ _ _ _ _ = Ok _ |- _ => apply init_ata_if_needed_ok in H as (_ & t & _ & _ & _ & Hcase & [A1 _ _ _]) end.
  loads. rewrite A, wdat_set_dat, A1 in Hmm. rewrite !lookup_ins in Hmm. repeat case_decide; simplify_eq; try done.
Qed.
Lemma cancel_prog E sg a w w' evs m : lockup_exec E sg (LCancel a) w = Ok (w', evs) ->
  wdat w !! xa_mint a = Some (DMint m) -> xa_tp a = m_prog m.
Proof.
  unfold lockup_exec. intros H Hm. inv_all H. unfold Lockup.cancel in H. inv_all H. injection H as <- <-.
  match goal with H : transfer_checked _ _ _ _ _ _ _ _ _ _ = Ok _ |- _ => apply transfer_checked_ok in H as (tf & td & m' & _ & _ & Hmm & _ & _ & Hp & _) end.
  match goal with H : init_ata_if_needed _ _ _ _ _ _ _ = Ok _ |- _ => apply init_ata_if_needed_ok in H as (_ & t & _ & _ & _ & Hcase & [A1 _ _ _]) end.
  loads. rewrite wdat_set_dat, A1 in Hmm. rewrite !lookup_ins in Hmm. repeat case_decide; simplify_eq; try done.
Qed.

(** ** C53: cancel and withdraw commute *)
Lemma cancel_withdraw_record s st n s2 s3 : refunded (s_amounts s) = 0 ->
  stream_withdraw s n = Ok s2 -> s_depleted s2 = false ->
  stream_withdraw (stream_cancel s (deposited (s_amounts s) - st) (st - withdrawn (s_amounts s))) n = Ok s3 ->
  s_depleted (stream_cancel s (deposited (s_amounts s) - st) (st - withdrawn (s_amounts s))) = false ->
  withdrawn (s_amounts s2) <= st ->
  s3 = stream_cancel s2 (deposited (s_amounts s2) - st) (st - withdrawn (s_amounts s2)).
Proof.
  intros Hr0 H2 Hd2 H3 Hd3 Hle.
  apply stream_withdraw_ok in H2 as (_ & _ & ->). apply stream_withdraw_ok in H3 as (_ & _ & ->).
  unfold stream_cancel in *. cbn in *. rewrite Hr0 in *.
  destruct (Z.leb_spec (deposited (s_amounts s) - 0) (withdrawn (s_amounts s) + n)); [done|].
  replace (deposited (s_amounts s) - (deposited (s_amounts s) - st)) with st by lia.
  destruct (Z.leb_spec st (withdrawn (s_amounts s) + n)), (Z.eqb_spec (st - (withdrawn (s_amounts s) + n)) 0); try lia; f_equal; try done.
  destruct (st - withdrawn (s_amounts s) =? 0); done.
Qed.

Theorem C53_cancel_withdraw_commute : forall E w sgc a sgw b n w1 e1 w2 e2 u1 f1 u2 f2,
  env_ok E -> reachable E w -> xa_stream a = wa_stream b -> plain E (xa_mint a) = true ->
  lockup_exec E sgc (LCancel a) w = Ok (w1, e1) -> lockup_exec E sgw (LWithdraw b n) w1 = Ok (w2, e2) ->
  lockup_exec E sgw (LWithdraw b n) w = Ok (u1, f1) -> lockup_exec E sgc (LCancel a) u1 = Ok (u2, f2) ->
  wdat w2 = wdat u2 /\ e2 = f1 /\
  exists q r, e1 = [EvCancel (xa_mint a) q r (xa_stream a) (xa_nft_mint a)] /\ f2 = [EvCancel (xa_mint a) (q - n) r (xa_stream a) (xa_nft_mint a)].
Proof.
  intros E w sgc a sgw b n w1 e1 w2 e2 u1 f1 u2 f2 HE Hr Hab Hpl A1 A2 B1 B2. pose proof (now_range w) as Hnow.
  pose proof (exec_cancel_inv _ _ _ _ _ _ A1) as (mA1 & sA1 & vtA1 & dtA1 & stA1 & FA1).
  pose proof (exec_withdraw_inv _ _ _ _ _ _ _ A2) as (_ & _ & trA2 & mA2 & ntA2 & sA2 & sA3 & vtA2 & dtA2 & feeA2 & wdA2 & FA2).
  pose proof (exec_withdraw_inv _ _ _ _ _ _ _ B1) as (Hn & _ & trB1 & mB1 & ntB1 & sB1 & sB2 & vtB1 & dtB1 & feeB1 & wdB1 & FB1).
  pose proof (exec_cancel_inv _ _ _ _ _ _ B2) as (mB2 & sB2' & vtB2 & dtB2 & stB2 & FB2).
  (* token programs and vaults agree *)
  assert (wa_mint b = xa_mint a) as Hmint.
  { pose proof (cf_mint_addr _ _ _ _ _ _ _ _ _ _ _ FA1). pose proof (wf_mint_addr _ _ _ _ _ _ _ _ _ _ _ _ _ _ _ _ FB1).
    pose proof (cf_stream _ _ _ _ _ _ _ _ _ _ _ FA1) as S1. pose proof (wf_stream _ _ _ _ _ _ _ _ _ _ _ _ _ _ _ _ FB1) as S2.
    rewrite Hab, S2 in S1. injection S1 as ->. congruence. }
  assert (wa_tp b = xa_tp a) as Htp.
  { pose proof (cf_mint _ _ _ _ _ _ _ _ _ _ _ FA1) as M. rewrite (cancel_prog _ _ _ _ _ _ _ A1 M).
    rewrite <- Hmint in M. by rewrite (withdraw_prog _ _ _ _ _ _ _ _ B1 M). }
  assert (wa_vault b = xa_vault a) as Hvault.
  { pose proof (cf_vault_addr _ _ _ _ _ _ _ _ _ _ _ FA1) as V1. pose proof (wf_vault_addr _ _ _ _ _ _ _ _ _ _ _ _ _ _ _ _ FB1) as V2.
    rewrite Hmint, Htp, <- Hab, V1 in V2. by injection V2. }
  assert (plain E (wa_mint b) = true) as Hpl' by congruence.
  (* the four payouts *)
  pose proof (payout_pay _ _ _ (DStream sA1) _ _ _ _ _ _ _ _ _ _ _ (cf_pay _ _ _ _ _ _ _ _ _ _ _ FA1) (cf_vault _ _ _ _ _ _ _ _ _ _ _ FA1)
    (cf_stream _ _ _ _ _ _ _ _ _ _ _ FA1) eq_refl Hpl) as PA1.
  pose proof (payout_pay _ _ _ (DStream sA2) _ _ _ _ _ _ _ _ _ _ _ (wf_pay _ _ _ _ _ _ _ _ _ _ _ _ _ _ _ _ FA2) (wf_vault _ _ _ _ _ _ _ _ _ _ _ _ _ _ _ _ FA2)
    (wf_stream _ _ _ _ _ _ _ _ _ _ _ _ _ _ _ _ FA2) eq_refl Hpl') as PA2.
  pose proof (payout_pay _ _ _ (DStream sB1) _ _ _ _ _ _ _ _ _ _ _ (wf_pay _ _ _ _ _ _ _ _ _ _ _ _ _ _ _ _ FB1) (wf_vault _ _ _ _ _ _ _ _ _ _ _ _ _ _ _ _ FB1)
    (wf_stream _ _ _ _ _ _ _ _ _ _ _ _ _ _ _ _ FB1) eq_refl Hpl') as PB1.
  pose proof (payout_pay _ _ _ (DStream sB2') _ _ _ _ _ _ _ _ _ _ _ (cf_pay _ _ _ _ _ _ _ _ _ _ _ FB2) (cf_vault _ _ _ _ _ _ _ _ _ _ _ FB2)
    (cf_stream _ _ _ _ _ _ _ _ _ _ _ FB2) eq_refl Hpl) as PB2.
  pose proof (cf_stream _ _ _ _ _ _ _ _ _ _ _ FA1) as SA1. pose proof (wf_stream _ _ _ _ _ _ _ _ _ _ _ _ _ _ _ _ FA2) as SA2.
  pose proof (wf_stream _ _ _ _ _ _ _ _ _ _ _ _ _ _ _ _ FB1) as SB1. pose proof (cf_stream _ _ _ _ _ _ _ _ _ _ _ FB2) as SB2.
  rewrite <- Hab in SA2, SB1. rewrite SA1 in SB1. injection SB1 as <-.
  rewrite PA1 in SA2. unfold pay in SA2. rewrite decide_True in SA2 by done. injection SA2 as <-.
  rewrite PB1 in SB2. unfold pay in SB2. rewrite decide_True in SB2 by done. injection SB2 as <-.
  (* the clock stands still *)
  assert (get_current_time w1 = get_current_time w) as Hnw1.
  { apply now_same. exact (ds_clock _ _ _ (pf_step _ _ _ _ _ _ _ _ _ _ _ _ _ _ _ (cf_pay _ _ _ _ _ _ _ _ _ _ _ FA1))). }
  assert (get_current_time u1 = get_current_time w) as Hnu1.
  { apply now_same. exact (ds_clock _ _ _ (pf_step _ _ _ _ _ _ _ _ _ _ _ _ _ _ _ (wf_pay _ _ _ _ _ _ _ _ _ _ _ _ _ _ _ _ FB1))). }
  (* the same split *)
  pose proof (reachable_stream_ok _ _ _ _ HE Hr SA1) as Hok.
  pose proof (stream_withdraw_ok _ _ _ (wf_new _ _ _ _ _ _ _ _ _ _ _ _ _ _ _ _ FB1)) as (_ & _ & HsB2).
  pose proof (stream_withdraw_ok _ _ _ (wf_new _ _ _ _ _ _ _ _ _ _ _ _ _ _ _ _ FA2)) as (_ & _ & HsA3).
  pose proof (cf_not_depleted _ _ _ _ _ _ _ _ _ _ _ FB2) as HdB2. pose proof (cf_not_canceled _ _ _ _ _ _ _ _ _ _ _ FB2) as HcB2.
  pose proof (cf_not_depleted _ _ _ _ _ _ _ _ _ _ _ FA1) as HdA1. pose proof (cf_not_canceled _ _ _ _ _ _ _ _ _ _ _ FA1) as HcA1.
  pose proof (wf_not_depleted _ _ _ _ _ _ _ _ _ _ _ _ _ _ _ _ FA2) as HdA2.
  pose proof (cf_streamed _ _ _ _ _ _ _ _ _ _ _ FA1) as HstA. pose proof (cf_streamed _ _ _ _ _ _ _ _ _ _ _ FB2) as HstB.
  pose proof (cf_lt _ _ _ _ _ _ _ _ _ _ _ FA1) as Hlt. pose proof (cf_withdrawn _ _ _ _ _ _ _ _ _ _ _ FA1) as HwA.
  pose proof (cf_withdrawn _ _ _ _ _ _ _ _ _ _ _ FB2) as HwB.
  assert (refunded (s_amounts sA1) = 0) as Hr0.
  { pose proof (so_canceled _ Hok) as Hc. pose proof (so_refunded _ Hok). destruct (decide (0 < refunded (s_amounts sA1))) as [H0|]; [|lia].
    apply Hc in H0. congruence. }
  rewrite (streamed_schedule sA1) in HstA by done. injection HstA as HstA.
  assert (stB2 = stA1) as ->.
  { assert (stream_ok sB2) as Hok2.
    { eapply stream_change_ok; [exact Hok|]. eapply sc_withdraw; [by left|exact Hn|reflexivity|exact FB1|].
      rewrite (wf_evs _ _ _ _ _ _ _ _ _ _ _ _ _ _ _ _ FB1). simpl. rewrite Z.eqb_refl. lia. }
    rewrite Hnu1, (streamed_schedule sB2) in HstB by done. injection HstB as <-. rewrite <- HstA, HsB2. done. }
  split; [|split].
  - apply map_eq. intros k. rewrite PA2, PB2. unfold pay. rewrite PA1, PB1, <- Hab, Hvault, Hmint, Htp. unfold pay. cbv zeta.
    destruct (decide (k = xa_stream a)) as [->|Hks].
    + do 2 f_equal. eapply cancel_withdraw_record; [exact Hr0|exact (wf_new _ _ _ _ _ _ _ _ _ _ _ _ _ _ _ _ FB1)|exact HdB2
        |exact (wf_new _ _ _ _ _ _ _ _ _ _ _ _ _ _ _ _ FA2)|exact HdA2|exact HwB].
    + replace (deposited (s_amounts sB2)) with (deposited (s_amounts sA1)) by (by rewrite HsB2).
      destruct (decide (k = xa_vault a)) as [->|Hkv].
      * rewrite (cf_vault _ _ _ _ _ _ _ _ _ _ _ FA1).
        destruct (decide (xa_vault a = xa_sender_ata a)), (decide (xa_vault a = wa_dest b)); cbn [credit with_amount t_amount];
          do 2 f_equal; unfold with_amount; cbn; f_equal; lia.
      * destruct (decide (k = xa_sender_ata a)) as [Hk1|Hk1]; destruct (decide (k = wa_dest b)) as [Hk2|Hk2]; try done.
        (* both pay into one account: it belongs to the sender in both orders *)
        assert (xa_sender a = wa_withdrawal_recipient b) as ->; [|by rewrite credit_comm].
        pose proof (wf_pay _ _ _ _ _ _ _ _ _ _ _ _ _ _ _ _ FA2) as FP. pose proof (cf_pay _ _ _ _ _ _ _ _ _ _ _ FA1) as FQ.
        pose proof (pf_dest _ _ _ _ _ _ _ _ _ _ _ _ _ _ _ FP) as D2. pose proof (pf_dest_owner _ _ _ _ _ _ _ _ _ _ _ _ _ _ _ FP) as <-.
        pose proof (pf_dest _ _ _ _ _ _ _ _ _ _ _ _ _ _ _ FQ) as D1. pose proof (pf_dest_owner _ _ _ _ _ _ _ _ _ _ _ _ _ _ _ FQ) as <-.
        unfold dest_before in D1, D2. rewrite <- Hk2, PA1 in D2. rewrite <- Hk1 in D1. unfold pay in D2.
        rewrite decide_False in D2 by done. rewrite (decide_False (P := k = xa_vault a)) in D2 by done. rewrite decide_True in D2 by done.
        destruct D1 as [D1|[D1 ?]]; rewrite D1 in D2; cbn [credit] in D2; destruct D2 as [D2|[D2 _]]; try discriminate D2; injection D2 as <-; cbn; [done|].
        exact (pf_dest_owner _ _ _ _ _ _ _ _ _ _ _ _ _ _ _ FQ).
  - rewrite (wf_evs _ _ _ _ _ _ _ _ _ _ _ _ _ _ _ _ FA2), (wf_evs _ _ _ _ _ _ _ _ _ _ _ _ _ _ _ _ FB1). do 2 f_equal.
    pose proof (wf_fee _ _ _ _ _ _ _ _ _ _ _ _ _ _ _ _ FA2) as HA. pose proof (wf_fee _ _ _ _ _ _ _ _ _ _ _ _ _ _ _ _ FB1) as HB.
    rewrite (oracle_not_feed _ _ _ w) in HA.
    + rewrite HA in HB. by injection HB.
    + exact (ds_clock _ _ _ (pf_step _ _ _ _ _ _ _ _ _ _ _ _ _ _ _ (cf_pay _ _ _ _ _ _ _ _ _ _ _ FA1))).
    + intros o rd d. rewrite PA1. unfold pay. destruct (decide (wa_feed b = xa_stream a)) as [->|]; [rewrite SA1; split; discriminate|].
      assert (forall f z x, credit f z x = Some (DFeed o rd d) <-> x = Some (DFeed o rd d)) as Hcr by (intros ? ? [[]|]; cbn [credit]; split; congruence).
      cbv zeta. destruct (decide _), (decide _); rewrite ?Hcr; done.
  - eexists _, _. split; [exact (cf_evs _ _ _ _ _ _ _ _ _ _ _ FA1)|]. rewrite (cf_evs _ _ _ _ _ _ _ _ _ _ _ FB2). rewrite HsB2. cbn. do 2 f_equal. lia.
Qed.

(** ** C54: the size of the withdrawals does not matter *)

(** An accepted withdrawal would have been accepted with any other permitted amount. *)
Lemma withdraw_other_amount E sg a N n w w' evs tr m nt s s' vt dt fee wd :
  stream_ok s -> plain E (wa_mint a) = true -> lockup_exec E sg (LWithdraw a N) w = Ok (w', evs) ->
  withdraw_facts E sg a N w w' evs tr m nt s s' vt dt fee wd ->
  0 < n <= wd -> n <= t_amount vt -> (wa_vault a <> wa_dest a -> t_amount dt + n <= U64_MAX) ->
  exists u f, lockup_exec E sg (LWithdraw a n) w = Ok (u, f).
Proof.
  intros Hok Hpl Hx F Hn Hv Hd. pose proof (now_range w) as Hnow.
  pose proof (wf_wd _ _ _ _ _ _ _ _ _ _ _ _ _ _ _ _ F) as Hwd. pose proof (wf_fee _ _ _ _ _ _ _ _ _ _ _ _ _ _ _ _ F) as Hfee.
  pose proof (wf_stream _ _ _ _ _ _ _ _ _ _ _ _ _ _ _ _ F) as Hst. pose proof (wf_vault _ _ _ _ _ _ _ _ _ _ _ _ _ _ _ _ F) as Hvt.
  pose proof (wf_mint _ _ _ _ _ _ _ _ _ _ _ _ _ _ _ _ F) as Hm. pose proof (wf_pay _ _ _ _ _ _ _ _ _ _ _ _ _ _ _ _ F) as P.
  pose proof (withdraw_prog _ _ _ _ _ _ _ _ Hx Hm) as Htp.
  assert (get_withdrawable_amount (get_current_time w) (s_times s) (s_amounts s) (s_depleted s) (s_canceled s) = Ok wd) as Hwd' by exact Hwd.
  assert (wd <= deposited (s_amounts s) - refunded (s_amounts s) - withdrawn (s_amounts s)) as Hwb.
  { unfold get_withdrawable_amount in Hwd'. rewrite (streamed_entitled s) in Hwd' by done. cbn [rbind] in Hwd'. apply u64_sub_ok in Hwd' as [Hw1 Hw2].
    pose proof (entitled_bounds s (get_current_time w) Hok). lia. }
  assert (exists s2, stream_withdraw s n = Ok s2 /\ s_bump s2 = s_bump s) as (s2 & Hs2 & Hb2).
  { unfold stream_withdraw. rewrite u64_add_le by (destruct Hok; lia). cbn [rbind deposited refunded].
    rewrite u64_sub_le by (destruct Hok; lia). cbn [rbind]. eexists. split; [done|]. done. }
  assert (exists w1, withdraw_accounts E sg a w = Ok (w1, s, m) /\ wclock w1 = wclock w /\
    wdat w1 = <[wa_dest a:=DToken dt]> (wdat w) /\ withdraw_handler E a N s m w1 = Ok (w', evs) /\ withdraw_accs_ok a = true) as (w1 & HA & Hc1 & Hd1 & HH & Hacc).
  { unfold lockup_exec in Hx. destruct (lockup_ix_ok _) eqn:Hix; [|done]. cbn [ensure rbind] in Hx. unfold lockup_ix_ok in Hix. apply andb_prop in Hix as [Hacc _].
    unfold withdraw in Hx. inv_all Hx. destruct x as [[w1 s1] m1]. exists w1.
    pose proof He as HA. unfold withdraw_accounts in HA. inv_all HA. injection HA as <- <- <-. loads.
    match goal with H : init_ata_if_needed _ _ _ _ _ _ _ = Ok _ |- _ => apply init_ata_if_needed_ok in H as (_ & t & Tm & To & Tp & Hcase & [A1 B1 _ _]) end.
    assert (x3 = s) as -> by congruence. assert (x1 = m) as -> by congruence.
    assert (t = dt) as ->; [|done].
    destruct P. destruct Hcase as [(Hno & _ & -> & _)|[Hyes _]]; destruct pf_dest as [Hd0|[Hd0 Hd00]]; try congruence. }
  unfold withdraw_handler in HH. inv_all HH. match goal with p : (world * Z)%type |- _ => destruct p as [w3 fee'] end. inv_all HH. injection HH as <- <-.
  assert (get_current_time w1 = get_current_time w) as Hn1 by (by apply now_same).
  pose proof (charge_fee_ok _ _ _ _ _ _ _ _ He2) as ([A2 C2 _ _] & Hconv & Hpaid).
  assert (forall d d' : stream_data, convert_usd_fee_to_lamports (withdrawal_fee_usd E) (wa_chainlink a) (wa_feed a) (set_dat (wa_stream a) (DStream d) w1) =
    convert_usd_fee_to_lamports (withdrawal_fee_usd E) (wa_chainlink a) (wa_feed a) (set_dat (wa_stream a) (DStream d') w1)) as Hcv.
  { intros d d'. apply oracle_not_feed; [done|]. intros o r z. rewrite !wdat_set_dat, !lookup_ins. destruct (decide (wa_stream a = wa_feed a)); [split; discriminate|done]. }
  rewrite (Hcv x1 s2) in Hconv.
  destruct (charge_fee_live _ _ _ (wa_signer a) (wa_treasury a) _ _ Hconv) as (w4 & Hw4).
  { destruct Hpaid as [[? _]|[Hp0 Htr]]; [by left|]. right. apply system_transfer_ok in Htr as (_ & Hno & Hl & _); [|lia].
    rewrite lam_set_dat in Hl |- *. split; [|done]. rewrite wdat_set_dat in Hno |- *. rewrite lookup_ins in Hno |- *. by case_decide. }
  pose proof (charge_fee_ok _ _ _ _ _ _ _ _ Hw4) as ([A4 C4 _ _] & _).
  pose proof (transfer_checked_unguarded _ _ _ _ _ _ _ _ _ _ _ He3) as Hgu. rewrite C2 in Hgu.
  assert (guarded E (wa_mint a) (wa_vault a) (wa_dest a) (wclock w4) = false) as Hgu4 by (rewrite C4; exact Hgu). clear Hgu.
  apply transfer_checked_ok in He3 as (tf & td & mm & T1 & T2 & T3 & P1 & P2 & P3 & M1 & M2 & F1 & F2 & O1 & Sg & _ & _ & _).
  rewrite A2, wdat_set_dat, Hd1 in T1, T2, T3. rewrite wdat_set_dat, Hd1 in A4.
  assert (wa_stream a <> wa_dest a) as N1.
  { intros Heq. destruct (pf_dest _ _ _ _ _ _ _ _ _ _ _ _ _ _ _ P) as [D|[D _]]; rewrite <- Heq in D; congruence. }
  assert (wa_stream a <> wa_vault a) as N2 by (intros Heq; rewrite Heq in Hst; congruence).
  assert (wa_stream a <> wa_mint a) as N3 by (intros Heq; rewrite Heq in Hst; congruence).
  rewrite lookup_insert_ne in T1 by exact N2. rewrite lookup_insert_ne in T2 by exact N1. rewrite lookup_insert_ne in T3 by exact N3.
  rewrite lookup_insert in T2. injection T2 as <-.
  assert (wa_vault a <> wa_dest a -> tf = vt) as Htf by (intros ?; rewrite lookup_insert_ne in T1 by congruence; congruence).
  assert (wa_vault a = wa_dest a -> tf = dt /\ dt = vt) as Htf2.
  { intros Heq. rewrite Heq in T1. rewrite lookup_insert in T1. injection T1 as <-. split; [done|].
    destruct (pf_dest _ _ _ _ _ _ _ _ _ _ _ _ _ _ _ P) as [D|[D _]]; rewrite <- Heq in D; congruence. }
  assert (mm = m) as ->.
  { rewrite lookup_ins in T3. case_decide; [done|]. congruence. }
  assert (exists w5, transfer_checked E (wa_tp a) (wa_vault a) (wa_dest a) (wa_stream a) true (wa_mint a) n (m_decimals m) w4 = Ok w5) as (w5 & Hw5).
  { unfold transfer_checked.
    assert (wdat w4 !! wa_vault a = Some (DToken tf)) as L1 by (rewrite A4, lookup_insert_ne by exact N2; exact T1).
    assert (wdat w4 !! wa_dest a = Some (DToken dt)) as L2 by (rewrite A4, lookup_insert_ne by exact N1; apply lookup_insert).
    assert (wdat w4 !! wa_mint a = Some (DMint m)) as L3 by (rewrite A4, lookup_insert_ne by exact N3; exact T3).
    rewrite (proj2 (load_token_ok _ _ _) L1), (proj2 (load_mint_ok _ _ _) L3), (proj2 (load_token_ok _ _ _) L2). cbn [rbind].
    rewrite P1, P2, P3, F1, F2, M1, M2, O1, !Z.eqb_refl. unfold tprog_eqb. rewrite bool_decide_true by done. cbn [andb negb ensure rbind].
    assert (n <= t_amount tf) as Hle by (destruct (decide (wa_vault a = wa_dest a)) as [Heq|Hne]; [destruct (Htf2 Heq) as [-> ->]; done|by rewrite Htf]).
    rewrite (proj2 (Z.leb_le _ _) Hle). unfold withheld, mint_withholds. rewrite Hgu4, Hpl. cbn [ensure rbind of_option]. rewrite Z.sub_0_r. destruct (Z.eqb_spec (wa_vault a) (wa_dest a)) as [|Hne]; [by eexists|].
    rewrite (proj2 (Z.leb_le _ _) (Hd Hne)). cbn [ensure rbind]. by eexists. }
  eexists w5, _. unfold lockup_exec, lockup_ix_ok. rewrite Hacc.
  assert (is_u64 n = true) as -> by (unfold is_u64; apply andb_true_intro; split; apply Z.leb_le; destruct Hok; lia).
  cbn [andb ensure rbind]. unfold withdraw. rewrite HA. cbn [rbind]. unfold withdraw_handler. rewrite Hn1, Hwd. cbn [rbind].
  rewrite (wf_not_depleted _ _ _ _ _ _ _ _ _ _ _ _ _ _ _ _ F). unfold check_withdraw.
  rewrite (proj2 (Z.eqb_neq n 0)) by lia. rewrite (proj2 (Z.ltb_ge _ n)) by lia. cbn [rbind].
  rewrite Hs2. cbn [rbind]. rewrite Hw4. cbn [rbind]. rewrite Hb2, (wf_stream_addr _ _ _ _ _ _ _ _ _ _ _ _ _ _ _ _ F).
  rewrite bool_decide_true by done. rewrite Hw5. cbn [rbind]. reflexivity.
Qed.

Theorem C54_smaller_amount : forall E sg a N n w w' evs,
  env_ok E -> reachable E w -> plain E (wa_mint a) = true -> lockup_exec E sg (LWithdraw a N) w = Ok (w', evs) -> 1 <= n <= N ->
  exists u f, lockup_exec E sg (LWithdraw a n) w = Ok (u, f).
Proof.
  intros E sg a N n w w' evs HE Hr Hpl Hx Hn.
  pose proof (exec_withdraw_inv _ _ _ _ _ _ _ Hx) as (_ & _ & tr & m & nt & s & s' & vt & dt & fee & wd & F).
  pose proof (reachable_stream_ok _ _ _ _ HE Hr (wf_stream _ _ _ _ _ _ _ _ _ _ _ _ _ _ _ _ F)) as Hok.
  pose proof (wf_le _ _ _ _ _ _ _ _ _ _ _ _ _ _ _ _ F). pose proof (wf_pay _ _ _ _ _ _ _ _ _ _ _ _ _ _ _ _ F) as P.
  pose proof (pf_amount _ _ _ _ _ _ _ _ _ _ _ _ _ _ _ P). pose proof (pf_room _ _ _ _ _ _ _ _ _ _ _ _ _ _ _ P) as Hroom.
  rewrite received_plain in Hroom by exact Hpl.
  eapply withdraw_other_amount; [exact Hok|exact Hpl|exact Hx|exact F|lia|lia|]. intros Hne. specialize (Hroom Hne). lia.
Qed.

(** Two withdrawals are one withdrawal of the sum: same stream record, same balances, same everything, except that the
    fee is charged twice. *)
Theorem C54_two_equal_one : forall E sg sg' a n m w w1 e1 w2 e2,
  env_ok E -> reachable E w -> plain E (wa_mint a) = true -> wa_withdrawal_recipient a <> wa_stream a ->
  lockup_exec E sg (LWithdraw a n) w = Ok (w1, e1) -> lockup_exec E sg' (LWithdraw a m) w1 = Ok (w2, e2) ->
  exists u fee, lockup_exec E sg (LWithdraw a (n + m)) w = Ok (u, [EvWithdraw (wa_mint a) fee (wa_stream a) (wa_nft_mint a) (n + m)]) /\
    wdat u = wdat w2 /\
    e1 = [EvWithdraw (wa_mint a) fee (wa_stream a) (wa_nft_mint a) n] /\ e2 = [EvWithdraw (wa_mint a) fee (wa_stream a) (wa_nft_mint a) m].
Proof.
  intros E sg sg' a n m w w1 e1 w2 e2 HE Hr Hpl Hrs H1 H2. pose proof (now_range w) as Hnow. pose proof (reachable_inv _ _ HE Hr) as Hi.
  pose proof (exec_withdraw_inv _ _ _ _ _ _ _ H1) as (Hn & _ & tr1 & m1 & nt1 & s1 & s2 & vt1 & dt1 & fee1 & wd1 & F1).
  pose proof (exec_withdraw_inv _ _ _ _ _ _ _ H2) as (Hm & _ & tr2 & m2 & nt2 & s2' & s3 & vt2 & dt2 & fee2 & wd2 & F2).
  pose proof (reachable_stream_ok _ _ _ _ HE Hr (wf_stream _ _ _ _ _ _ _ _ _ _ _ _ _ _ _ _ F1)) as Hok.
  pose proof (payout_pay _ _ _ (DStream s1) _ _ _ _ _ _ _ _ _ _ _ (wf_pay _ _ _ _ _ _ _ _ _ _ _ _ _ _ _ _ F1) (wf_vault _ _ _ _ _ _ _ _ _ _ _ _ _ _ _ _ F1)
    (wf_stream _ _ _ _ _ _ _ _ _ _ _ _ _ _ _ _ F1) eq_refl Hpl) as P1.
  pose proof (payout_pay _ _ _ (DStream s2') _ _ _ _ _ _ _ _ _ _ _ (wf_pay _ _ _ _ _ _ _ _ _ _ _ _ _ _ _ _ F2) (wf_vault _ _ _ _ _ _ _ _ _ _ _ _ _ _ _ _ F2)
    (wf_stream _ _ _ _ _ _ _ _ _ _ _ _ _ _ _ _ F2) eq_refl Hpl) as P2.
  pose proof (wf_stream _ _ _ _ _ _ _ _ _ _ _ _ _ _ _ _ F2) as S2. rewrite P1 in S2. unfold pay in S2. rewrite decide_True in S2 by done. injection S2 as <-.
  pose proof (ds_clock _ _ _ (pf_step _ _ _ _ _ _ _ _ _ _ _ _ _ _ _ (wf_pay _ _ _ _ _ _ _ _ _ _ _ _ _ _ _ _ F1))) as Hck.
  pose proof (now_same _ _ Hck) as Hn1.
  pose proof (stream_withdraw_ok _ _ _ (wf_new _ _ _ _ _ _ _ _ _ _ _ _ _ _ _ _ F1)) as (_ & _ & Hs2).
  pose proof (stream_withdraw_ok _ _ _ (wf_new _ _ _ _ _ _ _ _ _ _ _ _ _ _ _ _ F2)) as (_ & _ & Hs3).
  assert (stream_ok s2) as Hok2.
  { eapply stream_change_ok; [exact Hok|]. eapply sc_withdraw; [by left|exact Hn|reflexivity|exact F1|].
    rewrite (wf_evs _ _ _ _ _ _ _ _ _ _ _ _ _ _ _ _ F1). simpl. rewrite Z.eqb_refl. lia. }
  pose proof (wf_not_depleted _ _ _ _ _ _ _ _ _ _ _ _ _ _ _ _ F1) as Hd1. pose proof (wf_not_depleted _ _ _ _ _ _ _ _ _ _ _ _ _ _ _ _ F2) as Hd2.
  (* the sum is withdrawable *)
  pose proof (wf_wd _ _ _ _ _ _ _ _ _ _ _ _ _ _ _ _ F1) as W1. pose proof (wf_wd _ _ _ _ _ _ _ _ _ _ _ _ _ _ _ _ F2) as W2.
  apply (withdrawable_entitled s1) in W1 as [W1 W1']; [|done..]. rewrite Hn1 in W2. apply (withdrawable_entitled s2) in W2 as [W2 W2']; [|done..].
  assert (entitled s2 (get_current_time w) = entitled s1 (get_current_time w)) as Hent.
  { unfold entitled. rewrite Hd1, Hd2. rewrite Hs2. reflexivity. }
  assert (withdrawn (s_amounts s2) = withdrawn (s_amounts s1) + n) as Hw2 by (rewrite Hs2; reflexivity).
  assert (n + m <= wd1) as Hsum by (pose proof (wf_le _ _ _ _ _ _ _ _ _ _ _ _ _ _ _ _ F2); lia).
  (* and covered by the vault *)
  pose proof (wf_pay _ _ _ _ _ _ _ _ _ _ _ _ _ _ _ _ F1) as Y1. pose proof (wf_pay _ _ _ _ _ _ _ _ _ _ _ _ _ _ _ _ F2) as Y2.
  pose proof (wf_vault _ _ _ _ _ _ _ _ _ _ _ _ _ _ _ _ F1) as V1. pose proof (wf_stream _ _ _ _ _ _ _ _ _ _ _ _ _ _ _ _ F1) as S1.
  assert (wa_vault a <> wa_dest a) as Hvd.
  { intros Heq. apply Hrs. rewrite <- (pf_dest_owner _ _ _ _ _ _ _ _ _ _ _ _ _ _ _ Y1), <- (pf_vault_owner _ _ _ _ _ _ _ _ _ _ _ _ _ _ _ Y1).
    destruct (pf_dest _ _ _ _ _ _ _ _ _ _ _ _ _ _ _ Y1) as [D|[D _]]; rewrite <- Heq, V1 in D; [by injection D as ->|done]. }
  assert (wa_vault a <> wa_stream a) as Hvs by (intros Heq; rewrite Heq, S1 in V1; discriminate V1).
  assert (wa_dest a <> wa_stream a) as Hds.
  { intros Heq. destruct (pf_dest _ _ _ _ _ _ _ _ _ _ _ _ _ _ _ Y1) as [D|[D _]]; rewrite Heq, S1 in D; discriminate D. }
  pose proof (wf_vault _ _ _ _ _ _ _ _ _ _ _ _ _ _ _ _ F2) as V2. rewrite P1 in V2. unfold pay in V2.
  rewrite decide_False in V2 by done. cbv zeta in V2. rewrite decide_False in V2 by done. rewrite decide_True in V2 by done.
  rewrite V1 in V2. cbn [credit] in V2. injection V2 as <-.
  assert (n + m <= t_amount vt1) as Hcov by (pose proof (pf_amount _ _ _ _ _ _ _ _ _ _ _ _ _ _ _ Y2) as Hx; cbn in Hx; lia).
  assert (t_amount dt1 + (n + m) <= U64_MAX) as Hroom.
  { pose proof (pf_room _ _ _ _ _ _ _ _ _ _ _ _ _ _ _ Y2 Hvd) as Hx. rewrite received_plain in Hx by exact Hpl.
    assert (t_amount dt2 = t_amount dt1 + n) as Hdt; [|lia].
    assert (wdat w1 !! wa_dest a = Some (DToken (with_amount dt1 (t_amount dt1 + n)))) as Hdat.
    { rewrite P1. unfold pay. rewrite decide_False by done. cbv zeta. rewrite decide_True by done. rewrite decide_False by congruence.
      pose proof (pf_dest_owner _ _ _ _ _ _ _ _ _ _ _ _ _ _ _ Y1) as Ho. pose proof (pf_dest_mint _ _ _ _ _ _ _ _ _ _ _ _ _ _ _ Y1) as Hmm.
      pose proof (pf_dest_prog _ _ _ _ _ _ _ _ _ _ _ _ _ _ _ Y1) as Hp.
      destruct (pf_dest _ _ _ _ _ _ _ _ _ _ _ _ _ _ _ Y1) as [D|[D D']]; rewrite D; cbn [credit]; [done|].
      rewrite Ho, Hmm, Hp in D'. rewrite D'. done. }
    destruct (pf_dest _ _ _ _ _ _ _ _ _ _ _ _ _ _ _ Y2) as [D|[D D']]; rewrite Hdat in D; [by injection D as <-|discriminate D]. }
  destruct (withdraw_other_amount E sg a n (n + m) w w1 e1 _ _ _ _ _ _ _ _ _ Hok Hpl H1 F1 ltac:(lia) Hcov ltac:(done)) as (u & f & Hu).
  pose proof (exec_withdraw_inv _ _ _ _ _ _ _ Hu) as (_ & _ & tr3 & m3 & nt3 & s1' & s3' & vt3 & dt3 & fee3 & wd3 & F3).
  pose proof (wf_stream _ _ _ _ _ _ _ _ _ _ _ _ _ _ _ _ F3) as S3. rewrite S1 in S3. injection S3 as <-.
  pose proof (payout_pay _ _ _ (DStream s1) _ _ _ _ _ _ _ _ _ _ _ (wf_pay _ _ _ _ _ _ _ _ _ _ _ _ _ _ _ _ F3) (wf_vault _ _ _ _ _ _ _ _ _ _ _ _ _ _ _ _ F3)
    S1 eq_refl Hpl) as P3.
  pose proof (stream_withdraw_ok _ _ _ (wf_new _ _ _ _ _ _ _ _ _ _ _ _ _ _ _ _ F3)) as (_ & _ & Hs3').
  assert (s3' = s3) as ->.
  { rewrite Hs3', Hs3, Hs2. rewrite Hs2 in Hd2. cbn in Hd2 |- *.
    destruct (Z.leb_spec (deposited (s_amounts s1) - refunded (s_amounts s1)) (withdrawn (s_amounts s1) + n)); [done|].
    rewrite Z.add_assoc. f_equal. }
  exists u, fee1. pose proof (wf_fee _ _ _ _ _ _ _ _ _ _ _ _ _ _ _ _ F1) as G1. pose proof (wf_fee _ _ _ _ _ _ _ _ _ _ _ _ _ _ _ _ F2) as G2.
  pose proof (wf_fee _ _ _ _ _ _ _ _ _ _ _ _ _ _ _ _ F3) as G3. rewrite G1 in G3. injection G3 as <-.
  rewrite (wf_evs _ _ _ _ _ _ _ _ _ _ _ _ _ _ _ _ F3) in Hu. split; [exact Hu|]. split; [|split].
  - apply map_eq. intros k. rewrite P3, P2. unfold pay. rewrite P1. unfold pay. cbv zeta.
    destruct (decide (k = wa_stream a)); [done|]. destruct (decide (k = wa_vault a)) as [->|].
    + rewrite !(decide_False (P := wa_vault a = wa_dest a)) by done. rewrite credit_add. by replace (- m + - n) with (- (n + m)) by lia.
    + destruct (decide (k = wa_dest a)); [|done]. rewrite credit_add. by rewrite Z.add_comm.
  - exact (wf_evs _ _ _ _ _ _ _ _ _ _ _ _ _ _ _ _ F1).
  - rewrite (wf_evs _ _ _ _ _ _ _ _ _ _ _ _ _ _ _ _ F2). do 2 f_equal.
    rewrite (oracle_not_feed _ _ _ w) in G2; [|exact Hck|].
    + rewrite G1 in G2. by injection G2.
    + intros o rd d. rewrite P1. unfold pay. destruct (decide (wa_feed a = wa_stream a)) as [->|]; [rewrite S1; split; discriminate|].
      assert (forall f z x, credit f z x = Some (DFeed o rd d) <-> x = Some (DFeed o rd d)) as Hcr by (intros ? ? [[]|]; cbn [credit]; split; congruence).
      cbv zeta. destruct (decide _), (decide _); rewrite ?Hcr; done.
Qed.

(** In particular nothing is gained or lost by withdrawing part first and the rest with [withdraw_max]. *)
Theorem C54_part_then_max : forall E sg sg' a n w w1 e1 w2 e2,
  env_ok E -> reachable E w -> signers_ok E sg -> plain E (wa_mint a) = true -> wa_withdrawal_recipient a <> wa_stream a ->
  lockup_exec E sg (LWithdraw a n) w = Ok (w1, e1) -> lockup_exec E sg' (LWithdrawMax a) w1 = Ok (w2, e2) ->
  exists u f, lockup_exec E sg (LWithdrawMax a) w = Ok (u, f) /\ wdat u = wdat w2.
Proof.
  intros E sg sg' a n w w1 e1 w2 e2 HE Hr Hsg Hpl Hrs H1 H2.
  assert (reachable E w1) as Hr1 by (eapply reachable_later; [exact Hr|]; eapply (step_later E any_clock); constructor; [exact Hsg|exact H1]).
  destruct (C11_withdraw_max_empties _ _ _ _ _ _ HE Hr1 H2) as (s1 & s2 & m & O2 & _ & HX2 & HX1).
  destruct (C09_withdraw _ _ _ _ _ _ _ HE Hr H1) as (s & s1' & wd & O1).
  pose proof (wo_after _ _ _ _ _ _ _ _ O1) as V1. rewrite (wo_before _ _ _ _ _ _ _ _ O2) in V1. injection V1 as <-.
  rewrite (C11_withdraw_max_is_withdraw E sg' a w1 m HE Hr1 (wo_view _ _ _ _ _ _ _ _ O2)) in H2.
  destruct (C54_two_equal_one E sg sg' a n m w w1 e1 w2 e2 HE Hr Hpl Hrs H1 H2) as (u & fee & Hu & Hd & _).
  assert (wd = n + m) as Hwd.
  { destruct (stream_view_inv _ _ _ _ _ (wo_before _ _ _ _ _ _ _ _ O1)) as (Hk & _). pose proof (reachable_stream_ok _ _ _ _ HE Hr Hk) as Hok.
    destruct (stream_view_inv _ _ _ _ _ (wo_before _ _ _ _ _ _ _ _ O2)) as (Hk1 & _). pose proof (reachable_stream_ok _ _ _ _ HE Hr1 Hk1) as Hok1.
    destruct (withdrawable_view_inv _ _ _ _ _ _ (wo_before _ _ _ _ _ _ _ _ O1) Hok (wo_view _ _ _ _ _ _ _ _ O1)) as [-> _].
    destruct (withdrawable_view_inv _ _ _ _ _ _ (wo_before _ _ _ _ _ _ _ _ O2) Hok1 (wo_view _ _ _ _ _ _ _ _ O2)) as [-> _].
    pose proof (exec_withdraw_inv _ _ _ _ _ _ _ H1) as (Hn & _ & tr & mm & nt & s0 & s0' & vt & dt & fee1 & wd1 & F).
    pose proof (withdraw_stream_view _ _ _ _ _ _ _ _ _ _ _ _ _ _ _ _ F) as V. rewrite (wo_before _ _ _ _ _ _ _ _ O1) in V. injection V as <-.
    pose proof (wf_pay _ _ _ _ _ _ _ _ _ _ _ _ _ _ _ _ F) as P. pose proof (ds_clock _ _ _ (pf_step _ _ _ _ _ _ _ _ _ _ _ _ _ _ _ P)) as Hck.
    pose proof (payout_own _ _ _ (DStream s) _ _ _ _ _ _ _ _ _ _ _ P (wf_vault _ _ _ _ _ _ _ _ _ _ _ _ _ _ _ _ F) Hk eq_refl) as PP.
    rewrite PP in Hk1. injection Hk1 as ->.
    rewrite (now_same _ _ Hck). rewrite (stream_change_entitled E sg w w1 e1 (wa_stream a) s (LWithdraw a n) s1 Hok); [rewrite (wo_withdrawn _ _ _ _ _ _ _ _ O1); lia|].
    eapply sc_withdraw; [by left|exact Hn|reflexivity|exact F|]. rewrite (wf_evs _ _ _ _ _ _ _ _ _ _ _ _ _ _ _ _ F). simpl. rewrite Z.eqb_refl. lia. }
  eexists u, _. rewrite (C11_withdraw_max_is_withdraw E sg a w wd HE Hr (wo_view _ _ _ _ _ _ _ _ O1)), Hwd. split; [exact Hu|exact Hd].
Qed.

(** ** C57: at every moment every deposited token is accounted for *)
Theorem C57_accounting : forall E w k nft s y z,
  env_ok E -> reachable_fwd E w -> stream_at E w k nft s ->
  withdrawable_amount_of E k nft w = Ok y -> refundable_amount_of E k nft w = Ok z ->
  (s_cancelable s = true -> withdrawn (s_amounts s) + y + z = deposited (s_amounts s) /\ refunded (s_amounts s) = 0) /\
  (s_canceled s = true \/ t_end (s_times s) <= wclock w ->
     z = 0 /\ withdrawn (s_amounts s) + y + refunded (s_amounts s) = deposited (s_amounts s)) /\
  (s_cancelable s = false -> z = 0).
Proof.
  intros E w k nft s y z HE Hr Hs Hy Hz. pose proof (reachable_inv _ _ HE (fwd_reachable _ _ Hr)) as Hi.
  pose proof (view_at _ _ _ _ _ Hi Hs) as Hv. pose proof (inv_stream_ok _ _ _ _ Hi (proj1 Hs)) as Hok.
  pose proof (C19_everything_in_the_end E w k nft s HE Hr Hs) as Hend. rewrite Hy in Hend.
  destruct (withdrawable_view_inv _ _ _ _ _ _ Hv Hok Hy) as [Hy' _].
  rewrite (refundable_view _ _ _ _ s Hv Hok) in Hz. injection Hz as Hz.
  pose proof (so_flags _ Hok) as Hf. pose proof (so_canceled _ Hok) as Hc. pose proof (so_refunded _ Hok) as Hr0. pose proof (so_depleted _ Hok) as Hdp.
  pose proof (entitled_bounds s (get_current_time w) Hok) as Hb.
  split; [|split].
  - intros Hca. rewrite Hca in Hz. assert (s_depleted s = false) as Hd.
    { destruct (s_depleted s); [|done]. rewrite Hf in Hca by (by right). discriminate Hca. }
    rewrite Hd in Hz. cbn [andb negb] in Hz. assert (s_canceled s = false) as Hcn.
    { destruct (s_canceled s); [|done]. rewrite Hf in Hca by (by left). discriminate Hca. }
    assert (refunded (s_amounts s) = 0) as H0; [|lia].
    destruct (decide (0 < refunded (s_amounts s))) as [Hp|]; [|lia]. apply Hc in Hp. congruence.
  - intros Hor. assert (t_end (s_times s) <= wclock w \/ s_canceled s = true) as Hor' by tauto. specialize (Hend Hor').
    injection Hend as Hend. destruct (s_cancelable s) eqn:Hca; [|cbn in Hz; lia].
    destruct (s_depleted s) eqn:Hd; cbn [andb negb] in Hz; [lia|]. destruct Hor as [Hcn|He]; [discriminate (Hf (or_introl Hcn))|].
    assert (refunded (s_amounts s) = 0); [|lia].
    destruct (decide (0 < refunded (s_amounts s))) as [Hp|]; [|lia]. apply Hc in Hp. discriminate (Hf (or_introl Hp)).
  - intros Hca. rewrite Hca in Hz. cbn in Hz. lia.
Qed.

(** Time only moves tokens from the refundable to the withdrawable side. *)
Theorem C57_over_time : forall E w w' k nft s y z y' z',
  env_ok E -> reachable_fwd E w -> later_fwd E w w' -> stream_at E w k nft s -> wdat w' !! k = Some (DStream s) ->
  withdrawable_amount_of E k nft w = Ok y -> refundable_amount_of E k nft w = Ok z ->
  withdrawable_amount_of E k nft w' = Ok y' -> refundable_amount_of E k nft w' = Ok z' ->
  y <= y' /\ z' <= z /\ (s_cancelable s = true -> y' - y = z - z').
Proof.
  intros E w w' k nft s y z y' z' HE Hr Hl Hs Hk' Hy Hz Hy' Hz'.
  pose proof (reachable_inv _ _ HE (fwd_reachable _ _ Hr)) as Hi. pose proof (reachable_fwd_later _ _ _ HE Hr Hl) as Hr'.
  pose proof (reachable_inv _ _ HE (fwd_reachable _ _ Hr')) as Hi'.
  assert (stream_at E w' k nft s) as Hs' by (split; [done|apply Hs]).
  pose proof (view_at _ _ _ _ _ Hi Hs) as Hv. pose proof (view_at _ _ _ _ _ Hi' Hs') as Hv'. pose proof (inv_stream_ok _ _ _ _ Hi (proj1 Hs)) as Hok.
  destruct (withdrawable_view_inv _ _ _ _ _ _ Hv Hok Hy) as [-> _]. destruct (withdrawable_view_inv _ _ _ _ _ _ Hv' Hok Hy') as [-> _].
  rewrite (refundable_view _ _ _ _ s Hv Hok) in Hz. injection Hz as <-. rewrite (refundable_view _ _ _ _ s Hv' Hok) in Hz'. injection Hz' as <-.
  assert (get_current_time w <= get_current_time w') as Hle.
  { pose proof (later_fwd_clock _ _ _ HE Hl). rewrite !now_clock by lia. lia. }
  pose proof (entitled_mono s _ _ Hok Hle) as Hm. pose proof (so_flags _ Hok) as Hf.
  destruct (s_cancelable s); destruct (s_depleted s); cbn [andb negb]; split_and!; try lia; intros Hca; try discriminate Hca; try lia.
Qed.

(** What each accepted instruction does to the three figures, at the instant it runs. *)
Theorem C57_withdraw_figures : forall E sg a n w w' evs x y z,
  env_ok E -> reachable E w -> lockup_exec E sg (LWithdraw a n) w = Ok (w', evs) ->
  streamed_amount_of E (wa_stream a) (wa_nft_mint a) w = Ok x ->
  withdrawable_amount_of E (wa_stream a) (wa_nft_mint a) w = Ok y ->
  refundable_amount_of E (wa_stream a) (wa_nft_mint a) w = Ok z ->
  streamed_amount_of E (wa_stream a) (wa_nft_mint a) w' = Ok x /\
  withdrawable_amount_of E (wa_stream a) (wa_nft_mint a) w' = Ok (y - n) /\
  refundable_amount_of E (wa_stream a) (wa_nft_mint a) w' = Ok z.
Proof.
  intros E sg a n w w' evs x y z HE Hr Hx Hxx Hy Hz. pose proof (now_range w) as Hnow.
  destruct (C09_withdraw _ _ _ _ _ _ _ HE Hr Hx) as (s & s' & wd & Ho).
  pose proof (exec_withdraw_inv _ _ _ _ _ _ _ Hx) as (_ & _ & tr & m & nt & s1 & s1' & vt & dt & fee & wd1 & F).
  pose proof (wo_before _ _ _ _ _ _ _ _ Ho) as Hv. pose proof (wo_after _ _ _ _ _ _ _ _ Ho) as Hv'.
  pose proof (withdraw_stream_view _ _ _ _ _ _ _ _ _ _ _ _ _ _ _ _ F) as Hv1. rewrite Hv in Hv1. injection Hv1 as <-.
  destruct (stream_view_inv _ _ _ _ _ Hv) as (Hk & _). pose proof (reachable_stream_ok _ _ _ _ HE Hr Hk) as Hok.
  destruct (stream_view_inv _ _ _ _ _ Hv') as (Hk' & _).
  pose proof (wf_pay _ _ _ _ _ _ _ _ _ _ _ _ _ _ _ _ F) as P. pose proof (ds_clock _ _ _ (pf_step _ _ _ _ _ _ _ _ _ _ _ _ _ _ _ P)) as Hck.
  pose proof (payout_own _ _ _ (DStream s) _ _ _ _ _ _ _ _ _ _ _ P (wf_vault _ _ _ _ _ _ _ _ _ _ _ _ _ _ _ _ F) Hk eq_refl) as PP.
  rewrite PP in Hk'. injection Hk' as ->.
  assert (stream_change E sg w w' evs (wa_stream a) s (LWithdraw a n) s') as Hch.
  { eapply sc_withdraw; [by left| |reflexivity|exact F|]; [apply (wo_range _ _ _ _ _ _ _ _ Ho)|].
    rewrite (wf_evs _ _ _ _ _ _ _ _ _ _ _ _ _ _ _ _ F). simpl. rewrite Z.eqb_refl. lia. }
  pose proof (proj1 (stream_change_ok _ _ _ _ _ _ _ _ _ Hok Hch)) as Hok'. pose proof (stream_change_entitled _ _ _ _ _ _ _ _ _ Hok Hch) as Hent.
  pose proof (now_same _ _ Hck) as Hn1.
  rewrite (streamed_view _ _ _ _ s Hv Hok) in Hxx. rewrite (streamed_view _ _ _ _ s' Hv' Hok'), Hn1, Hent. split; [exact Hxx|].
  destruct (withdrawable_view_inv _ _ _ _ _ _ Hv Hok Hy) as [Hyy _]. pose proof (wo_view _ _ _ _ _ _ _ _ Ho) as Hwv. rewrite Hy in Hwv. injection Hwv as <-.
  pose proof (wo_range _ _ _ _ _ _ _ _ Ho) as Hrg. pose proof (wo_withdrawn _ _ _ _ _ _ _ _ Ho) as Hww. split.
  - rewrite (withdrawable_view _ _ _ _ s' Hv' Hok'); rewrite Hn1, Hent; [f_equal|]; lia.
  - rewrite (refundable_view _ _ _ _ s Hv Hok) in Hz. rewrite (refundable_view _ _ _ _ s' Hv' Hok'), Hn1, Hent, <- Hz. f_equal.
    rewrite (wo_cancelable _ _ _ _ _ _ _ _ Ho). pose proof (wo_terms _ _ _ _ _ _ _ _ Ho) as (_ & _ & _ & _ & _ & Hdep & _).
    pose proof (wf_not_depleted _ _ _ _ _ _ _ _ _ _ _ _ _ _ _ _ F) as Hd. rewrite Hd. rewrite andb_true_r.
    pose proof (wo_depleted _ _ _ _ _ _ _ _ Ho) as Hdp. pose proof (entitled_bounds s (get_current_time w) Hok) as Hb.
    destruct (s_depleted s') eqn:Hd'; cbn [negb]; rewrite ?andb_false_r, ?andb_true_r; [|by rewrite <- Hdep].
    destruct (s_cancelable s) eqn:Hca; [|done]. pose proof (proj1 Hdp eq_refl) as Hall. pose proof (so_canceled _ Hok) as Hc.
    pose proof (so_flags _ Hok) as Hf. pose proof (so_refunded _ Hok). destruct (decide (0 < refunded (s_amounts s))) as [Hp|]; [|lia].
    apply Hc in Hp. rewrite Hf in Hca by (by left). discriminate Hca.
Qed.

Theorem C57_cancel_figures : forall E sg a w w' evs x y,
  env_ok E -> reachable E w -> signers_ok E sg -> lockup_exec E sg (LCancel a) w = Ok (w', evs) ->
  streamed_amount_of E (xa_stream a) (xa_nft_mint a) w = Ok x ->
  withdrawable_amount_of E (xa_stream a) (xa_nft_mint a) w = Ok y ->
  streamed_amount_of E (xa_stream a) (xa_nft_mint a) w' = Ok x /\
  withdrawable_amount_of E (xa_stream a) (xa_nft_mint a) w' = Ok y /\
  refundable_amount_of E (xa_stream a) (xa_nft_mint a) w' = Ok 0.
Proof.
  intros E sg a w w' evs x y HE Hr Hsg Hx Hxx Hy. pose proof (now_range w) as Hnow.
  destruct (C12_cancel _ _ _ _ _ _ HE Hr Hsg Hx) as (s & s' & st & Ho).
  pose proof (exec_cancel_inv _ _ _ _ _ _ Hx) as (m & s1 & vt & dt & st1 & F).
  pose proof (xo_before _ _ _ _ _ _ _ _ _ Ho) as Hv. pose proof (xo_after _ _ _ _ _ _ _ _ _ Ho) as Hv'.
  pose proof (cancel_stream_view _ _ _ _ _ _ _ _ _ _ _ F) as Hv1. rewrite Hv in Hv1. injection Hv1 as <-.
  destruct (stream_view_inv _ _ _ _ _ Hv) as (Hk & _). pose proof (reachable_stream_ok _ _ _ _ HE Hr Hk) as Hok.
  destruct (stream_view_inv _ _ _ _ _ Hv') as (Hk' & _).
  pose proof (cf_pay _ _ _ _ _ _ _ _ _ _ _ F) as P. pose proof (ds_clock _ _ _ (pf_step _ _ _ _ _ _ _ _ _ _ _ _ _ _ _ P)) as Hck.
  pose proof (payout_own _ _ _ (DStream s) _ _ _ _ _ _ _ _ _ _ _ P (cf_vault _ _ _ _ _ _ _ _ _ _ _ F) Hk eq_refl) as PP.
  rewrite PP in Hk'. injection Hk' as Hs'.
  assert (stream_change E sg w w' evs (xa_stream a) s (LCancel a) s') as Hch.
  { rewrite <- Hs'. eapply sc_cancel; [done|exact F|]. rewrite (cf_evs _ _ _ _ _ _ _ _ _ _ _ F). simpl. rewrite Z.eqb_refl. lia. }
  pose proof (proj1 (stream_change_ok _ _ _ _ _ _ _ _ _ Hok Hch)) as Hok'. pose proof (stream_change_entitled _ _ _ _ _ _ _ _ _ Hok Hch) as Hent.
  pose proof (now_same _ _ Hck) as Hn1.
  rewrite (streamed_view _ _ _ _ s Hv Hok) in Hxx. rewrite (streamed_view _ _ _ _ s' Hv' Hok'), Hn1, Hent. split; [exact Hxx|].
  destruct (withdrawable_view_inv _ _ _ _ _ _ Hv Hok Hy) as [-> ?].
  pose proof (xo_withdrawn _ _ _ _ _ _ _ _ _ Ho) as Hww. pose proof (xo_flags _ _ _ _ _ _ _ _ _ Ho) as (_ & Hca & _). split.
  - rewrite (withdrawable_view _ _ _ _ s' Hv' Hok'); rewrite Hn1, Hent, Hww; [done|lia].
  - rewrite (refundable_view _ _ _ _ s' Hv' Hok'), Hca. done.
Qed.

Theorem C57_renounce_figures : forall E sg a w w' evs x y,
  env_ok E -> reachable E w -> lockup_exec E sg (LRenounce a) w = Ok (w', evs) ->
  streamed_amount_of E (ra_stream a) (ra_nft_mint a) w = Ok x ->
  withdrawable_amount_of E (ra_stream a) (ra_nft_mint a) w = Ok y ->
  streamed_amount_of E (ra_stream a) (ra_nft_mint a) w' = Ok x /\
  withdrawable_amount_of E (ra_stream a) (ra_nft_mint a) w' = Ok y /\
  refundable_amount_of E (ra_stream a) (ra_nft_mint a) w' = Ok 0.
Proof.
  intros E sg a w w' evs x y HE Hr Hx Hxx Hy.
  apply exec_renounce_inv in Hx as (s & st & _ & _ & Hs & (nm & Hnm) & Hsa & _ & _ & _ & Hw & _).
  assert (ra_nft_mint a <> ra_stream a) as Hne by (intros Heq; rewrite Heq, Hs in Hnm; discriminate Hnm).
  assert (stream_view E (ra_stream a) (ra_nft_mint a) w = Ok s) as Hv.
  { unfold stream_view, load_stream, load_mint, check_seeds_bump. rewrite Hs, Hnm. cbn [rbind]. rewrite Hsa. by rewrite bool_decide_true by done. }
  assert (stream_view E (ra_stream a) (ra_nft_mint a) w' = Ok (stream_renounce s)) as Hv'.
  { unfold stream_view, load_stream, load_mint, check_seeds_bump. rewrite Hw, !wdat_set_dat, lookup_insert, lookup_insert_ne by congruence.
    rewrite Hnm. cbn [rbind]. change (s_bump (stream_renounce s)) with (s_bump s). rewrite Hsa. by rewrite bool_decide_true by done. }
  assert (get_current_time w' = get_current_time w) as Hn1 by (apply now_same; by rewrite Hw).
  unfold streamed_amount_of, withdrawable_amount_of, refundable_amount_of in *. rewrite Hv in Hxx, Hy. rewrite Hv', Hn1. cbn [rbind] in *.
  split; [exact Hxx|]. split; [exact Hy|]. unfold get_refundable_amount. done.
Qed.

(** ** Concrete cases: both orders are accepted in a reachable state; so are two withdrawals in a row *)
Definition both (E : env) (x y : list key * lockup_ix) (w : world) : bool :=
  match lockup_exec E (fst x) (snd x) w with
  | Ok (w1, _) => is_ok (lockup_exec E (fst y) (snd y) w1)
  | Err _ => false
  end.
Example C53_example : reachable E0 (T 1600 w2) /\ plain E0 (xa_mint (cancel_of 1)) = true /\
  both E0 ([kSender], LCancel (cancel_of 1)) ([kRecipient], LWithdraw (withdraw_to 1 kRecipient) 100) (T 1600 w2) = true /\
  both E0 ([kRecipient], LWithdraw (withdraw_to 1 kRecipient) 100) ([kSender], LCancel (cancel_of 1)) (T 1600 w2) = true.
Proof.
  split; [eapply reachable_later; [eapply history_reach, w2_hist|]; apply (script_later [CT 1600] tr2); [apply w2_hist|vm_compute; reflexivity]|].
  split; [vm_compute; reflexivity|]. split; vm_compute; reflexivity.
Qed.
Example C54_example : reachable E0 (T 1600 w2) /\ plain E0 (wa_mint (withdraw_to 1 kRecipient)) = true /\ wa_withdrawal_recipient (withdraw_to 1 kRecipient) <> wa_stream (withdraw_to 1 kRecipient) /\
  both E0 ([kRecipient], LWithdraw (withdraw_to 1 kRecipient) 100) ([kRecipient], LWithdraw (withdraw_to 1 kRecipient) 70) (T 1600 w2) = true.
Proof.
  split; [eapply reachable_later; [eapply history_reach, w2_hist|]; apply (script_later [CT 1600] tr2); [apply w2_hist|vm_compute; reflexivity]|].
  split; [vm_compute; reflexivity|]. split; [vm_compute; congruence|]. vm_compute. reflexivity.
Qed.
Example C57_example : exists s, reachable_fwd E0 (T 1600 w2) /\ stream_at E0 (T 1600 w2) (kStream kSender 1) (kNft kSender 1) s /\
  s_cancelable s = true /\
  streamed_amount_of E0 (kStream kSender 1) (kNft kSender 1) (T 1600 w2) = Ok 575 /\
  withdrawable_amount_of E0 (kStream kSender 1) (kNft kSender 1) (T 1600 w2) = Ok 425 /\
  refundable_amount_of E0 (kStream kSender 1) (kNft kSender 1) (T 1600 w2) = Ok 425 /\
  is_ok (lockup_exec E0 [kSender] (LRenounce (renounce_of 1)) (T 1600 w2)) = true.
Proof.
  eexists. split; [apply (T_fwd 1600 tr2); [apply w2_hist|vm_compute; reflexivity..]|].
  split; [split; [vm_compute; reflexivity|]; exists 255; vm_compute; reflexivity|].
  split; [reflexivity|]. split; [vm_compute; reflexivity|]. split; [vm_compute; reflexivity|]. split; vm_compute; reflexivity.
Qed.

Print Assumptions C53_cancel_withdraw_commute.
Print Assumptions C54_smaller_amount.
Print Assumptions C54_two_equal_one.
Print Assumptions C54_part_then_max.
Print Assumptions C57_accounting.
Print Assumptions C57_over_time.
Print Assumptions C57_withdraw_figures.
Print Assumptions C57_cancel_figures.
Print Assumptions C57_renounce_figures.
