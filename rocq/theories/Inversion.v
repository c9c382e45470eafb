(** What a successful instruction tells: one inversion lemma per instruction. *)
From Verif Require Export Tactics.

Lemma lookup_ins {A} (D : gmap key A) k d i :
  <[k:=d]> D !! i = if decide (k = i) then Some d else D !! i.
Proof. case_decide; subst; [apply lookup_insert | by apply lookup_insert_ne]. Qed.

Ltac ins := rewrite ?lookup_ins in *.
Ltac ins_cases := ins; repeat (case_decide; subst; simplify_eq; try done; try congruence).
Ltac map_solve := apply map_eq; let i := fresh "i" in intros i; ins_cases.

Definition non_token (d : adata) : Prop := match d with DToken _ => False | _ => True end.

(** Data after [own] is updated and [amount] leaves [vault], of which [got] arrives in [dest]. *)
Definition payout (D : gmap key adata) (own : key) (newd : adata) (vault dest : key) (vt dt : tokacc)
    (amount got : Z) : gmap key adata :=
  if decide (vault = dest) then <[own:=newd]> D
  else <[dest:=DToken (with_amount dt (t_amount dt + got))]>
        (<[vault:=DToken (with_amount vt (t_amount vt - amount))]> (<[own:=newd]> D)).

(** The destination token account before the transfer: existing, or just created empty. *)
Definition dest_before (w : world) (dest : key) (dt : tokacc) : Prop :=
  wdat w !! dest = Some (DToken dt) \/
  (wdat w !! dest = None /\ dt = TokAcc (t_prog dt) (t_mint dt) (t_owner dt) 0 false).

(** [D]: the data before the payout (that of [w], plus accounts just created). *)
Record payout_facts (E : env) (w : world) (D : gmap key adata) (own : key) (newd : adata) (vault dest : key) (vt dt : tokacc)
    (amount : Z) (tp : tprog) (mintk owner auth : key) (w' : world) : Prop := {
  pf_dest : dest_before w dest dt;
  pf_dest_owner : t_owner dt = owner;
  pf_dest_mint : t_mint dt = mintk;
  pf_dest_prog : t_prog dt = tp;
  pf_dest_addr : ata_address E owner mintk tp = Ok dest;
  pf_vault_owner : t_owner vt = auth;
  pf_vault_mint : t_mint vt = mintk;
  pf_vault_prog : t_prog vt = tp;
  pf_amount : amount <= t_amount vt;
  pf_room : vault <> dest -> t_amount dt + received E mintk vault dest (wclock w) amount <= U64_MAX;
  pf_step : data_step w w' (payout D own newd vault dest vt dt amount (received E mintk vault dest (wclock w) amount)) }.

Lemma payout_ok E payer dest owner mintk tp w w1 own d0 newd w2 vault vt auth signed amount dec w' :
  init_ata_if_needed E payer dest owner mintk tp w = Ok w1 ->
  wdat w !! vault = Some (DToken vt) ->
  wdat w !! own = Some d0 -> non_token d0 ->
  lam_step (set_dat own newd w1) w2 ->
  transfer_checked E tp vault dest auth signed mintk amount dec w2 = Ok w' ->
  signed = true /\
  exists dt, payout_facts E w (wdat w) own newd vault dest vt dt amount tp mintk owner auth w'.
Proof.
  intros Hi Hv Ho Hnt [A B C M] Ht.
  apply init_ata_if_needed_ok in Hi as (Hata & t & Hm & Hown & Hp & Hcase & [A1 B1 C1 M1]).
  apply transfer_checked_ok in Ht as (tf & td & m & Hf & Hd & Hmm & ? & ? & ? & ? & ? & ? & ? & ? & ? & ? & ? & Hw).
  rewrite A, wdat_set_dat, A1 in Hf, Hd, Hmm.
  assert (Hod : own <> dest).
  { intros ->. destruct Hcase as [(? & _)|(? & _)]; rewrite Ho in *; by simplify_eq. }
  assert (Hov : own <> vault).
  { intros ->. rewrite Ho in Hv. by simplify_eq. }
  assert (td = t) as ->. { rewrite lookup_insert_ne, lookup_insert in Hd by done. congruence. }
  assert (Hdb : dest_before w dest t).
  { destruct Hcase as [(?&?&->&?)|(?&?)]; [right; by simplify_eq/= | by left]. }
  split; [done|]. exists t.
  assert (tf = vt) as ->.
  { rewrite lookup_insert_ne in Hf by done. destruct (decide (vault = dest)) as [->|].
    - rewrite lookup_insert in Hf. destruct Hcase as [(? & _)|(? & _)]; congruence.
    - rewrite lookup_insert_ne in Hf by done. congruence. }
  assert (Hds : data_step w w2 (<[own:=newd]> (<[dest:=DToken t]> (wdat w)))).
  { split.
    - by rewrite A, wdat_set_dat, A1.
    - rewrite B, wclock_set_dat. done.
    - rewrite C, lam_total_set_dat. done.
    - intros k Hk. transitivity (lam w1 k); [by apply M1|].
      rewrite <-(lam_set_dat own newd w1). apply M. rewrite wdat_set_dat, A1. ins_cases. }
  rewrite (ds_clock _ _ _ Hds) in Hw.
  split; try done.
  - intros ?. destruct Hw as [[? ?]|(? & ? & ?)]; [done | done].
  - unfold payout. destruct Hw as [[-> ->]|(Hne & ? & ->)].
    + rewrite decide_True by done. destruct Hds as [D1 D2 D3 D4]. split; try done.
      rewrite D1. f_equal. apply insert_id. destruct Hcase as [(? & _)|(? & _)]; congruence.
    + rewrite decide_False by done. destruct Hds as [D1 D2 D3 D4]. split; try done.
      rewrite !wdat_set_dat, D1. map_solve.
Qed.

(** ** Lockup *)

Lemma check_withdraw_ok dep amount wd u : check_withdraw dep amount wd = Ok u ->
  dep = false /\ amount <> 0 /\ amount <= wd.
Proof.
  unfold check_withdraw. destruct dep; [discriminate|].
  destruct (amount =? 0) eqn:?; [discriminate|]. destruct (wd <? amount) eqn:?; [discriminate|].
  intros _. bools. auto.
Qed.

Lemma stream_withdraw_ok s amount s' : stream_withdraw s amount = Ok s' ->
  withdrawn (s_amounts s) + amount <= U64_MAX /\
  refunded (s_amounts s) <= deposited (s_amounts s) /\
  let am := s_amounts s in
  let w := withdrawn am + amount in
  let dep := deposited am - refunded am <=? w in
  s' = StreamData (Amounts (start_unlock am) (cliff_unlock am) (deposited am) (refunded am) w)
         (s_mint s) (s_bump s) (s_salt s) (if dep then false else s_cancelable s)
         (if dep then true else s_depleted s) (s_times s) (s_sender s) (s_canceled s).
Proof.
  unfold stream_withdraw. intros H. inv_all H. loads. subst. injection H as <-. auto.
Qed.

Record withdraw_facts (E : env) (sg : list key) (a : withdraw_accs) (amount : Z) (w w' : world)
    (evs : list event) (tr : treasury) (m : mint) (nt : tokacc) (s s' : stream_data) (vt dt : tokacc) (fee wd : Z) : Prop := {
  wf_signer : wa_signer a ∈ sg;
  wf_treasury : wdat w !! wa_treasury a = Some (DLockupTreasury tr);
  wf_treasury_addr : create_program_address E PLockup [s_TREASURY] (tr_bump tr) = Some (wa_treasury a);
  wf_mint : wdat w !! wa_mint a = Some (DMint m);
  wf_mint_addr : wa_mint a = s_mint s;
  wf_nft_mint : exists nm, wdat w !! wa_nft_mint a = Some (DMint nm);
  wf_nft : wdat w !! wa_nft_ata a = Some (DToken nt);
  wf_nft_addr : ata_address E (wa_stream_recipient a) (wa_nft_mint a) (wa_nft_tp a) = Ok (wa_nft_ata a);
  wf_nft_owner : t_owner nt = wa_stream_recipient a;
  wf_nft_prog : t_prog nt = wa_nft_tp a;
  wf_nft_amount : t_amount nt = 1;
  wf_who : wa_withdrawal_recipient a = wa_stream_recipient a \/ wa_signer a = wa_stream_recipient a;
  wf_stream : wdat w !! wa_stream a = Some (DStream s);
  wf_stream_addr : create_program_address E PLockup (stream_seeds (wa_nft_mint a)) (s_bump s) = Some (wa_stream a);
  wf_vault : wdat w !! wa_vault a = Some (DToken vt);
  wf_vault_addr : ata_address E (wa_stream a) (wa_mint a) (wa_tp a) = Ok (wa_vault a);
  wf_oracle : wa_chainlink a = tr_chainlink_program tr /\ wa_feed a = tr_chainlink_feed tr;
  wf_wd : get_withdrawable_amount (get_current_time w) (s_times s) (s_amounts s) (s_depleted s) (s_canceled s) = Ok wd;
  wf_not_depleted : s_depleted s = false;
  wf_nonzero : amount <> 0;
  wf_le : amount <= wd;
  wf_new : stream_withdraw s amount = Ok s';
  wf_fee : convert_usd_fee_to_lamports (withdrawal_fee_usd E) (wa_chainlink a) (wa_feed a) w = Ok fee;
  wf_evs : evs = [EvWithdraw (wa_mint a) fee (wa_stream a) (wa_nft_mint a) amount];
  wf_pay : payout_facts E w (wdat w) (wa_stream a) (DStream s') (wa_vault a) (wa_dest a) vt dt amount (wa_tp a)
             (wa_mint a) (wa_withdrawal_recipient a) (wa_stream a) w' }.

Lemma oracle_same fee prog feed w w' :
  wclock w' = wclock w -> wdat w' !! feed = wdat w !! feed ->
  convert_usd_fee_to_lamports fee prog feed w' = convert_usd_fee_to_lamports fee prog feed w.
Proof.
  intros Hc Hd. unfold convert_usd_fee_to_lamports, latest_round_data, oracle_decimals. by rewrite Hc, Hd.
Qed.

(** Data of feeds is all the fee depends on. *)
Lemma oracle_not_feed fee prog feed w w' :
  wclock w' = wclock w ->
  (forall o r d, wdat w' !! feed = Some (DFeed o r d) <-> wdat w !! feed = Some (DFeed o r d)) ->
  convert_usd_fee_to_lamports fee prog feed w' = convert_usd_fee_to_lamports fee prog feed w.
Proof.
  intros Hc Hd. unfold convert_usd_fee_to_lamports, latest_round_data, oracle_decimals. rewrite Hc.
  assert (match wdat w' !! feed with Some (DFeed o r d) => Some (o,r,d) | _ => None end =
          match wdat w !! feed with Some (DFeed o r d) => Some (o,r,d) | _ => None end) as Heq.
  { destruct (wdat w' !! feed) as [[]|] eqn:H1; destruct (wdat w !! feed) as [[]|] eqn:H2; try done;
    try (exfalso; pose proof (proj1 (Hd _ _ _) eq_refl); congruence);
    try (exfalso; pose proof (proj2 (Hd _ _ _) eq_refl); congruence).
    all: try (pose proof (proj1 (Hd _ _ _) eq_refl); congruence). }
  destruct (wdat w' !! feed) as [[]|]; destruct (wdat w !! feed) as [[]|]; simplify_eq; done.
Qed.

Lemma withdraw_accounts_inv E sg a w w1 s m :
  withdraw_accounts E sg a w = Ok (w1, s, m) ->
  exists tr nt vt,
  wa_signer a ∈ sg /\
  wdat w !! wa_treasury a = Some (DLockupTreasury tr) /\
  create_program_address E PLockup [s_TREASURY] (tr_bump tr) = Some (wa_treasury a) /\
  wdat w !! wa_mint a = Some (DMint m) /\
  wa_mint a = s_mint s /\
  (exists nm, wdat w !! wa_nft_mint a = Some (DMint nm)) /\
  wdat w !! wa_nft_ata a = Some (DToken nt) /\
  ata_address E (wa_stream_recipient a) (wa_nft_mint a) (wa_nft_tp a) = Ok (wa_nft_ata a) /\
  t_owner nt = wa_stream_recipient a /\
  t_prog nt = wa_nft_tp a /\
  t_amount nt = 1 /\
  (wa_withdrawal_recipient a = wa_stream_recipient a \/ wa_signer a = wa_stream_recipient a) /\
  wdat w !! wa_stream a = Some (DStream s) /\
  create_program_address E PLockup (stream_seeds (wa_nft_mint a)) (s_bump s) = Some (wa_stream a) /\
  wdat w !! wa_vault a = Some (DToken vt) /\
  t_owner vt = wa_stream a /\ t_prog vt = wa_tp a /\
  ata_address E (wa_stream a) (wa_mint a) (wa_tp a) = Ok (wa_vault a) /\
  (wa_chainlink a = tr_chainlink_program tr /\ wa_feed a = tr_chainlink_feed tr) /\
  init_ata_if_needed E (wa_signer a) (wa_dest a) (wa_withdrawal_recipient a) (wa_mint a) (wa_tp a) w = Ok w1.
Proof.
  unfold withdraw_accounts. intros H. inv_all H. loads. injection H as <- <- <-.
  exists x0, x2, x4. apply orb_prop in He7.
  split_and!; eauto.
  - bools; lia.
  - destruct He7; bools; auto.
Qed.

Lemma withdraw_inv E sg a amount w w' evs :
  withdraw E sg a amount w = Ok (w', evs) ->
  exists tr m nt s s' vt dt fee wd,
    withdraw_facts E sg a amount w w' evs tr m nt s s' vt dt fee wd.
Proof.
  unfold withdraw. intros H. inv_all H. destruct x as [[w1 s] m].
  apply withdraw_accounts_inv in He as (tr & nt & vt & ? & ? & ? & ? & ? & ? & ? & ? & ? & ? & ? & ? & ? & ? & ? & ? & ? & ? & ? & Hi).
  unfold withdraw_handler in H. inv_all H. destruct x2 as [w2 fee]. inv_all H. injection H as <- <-.
  apply check_withdraw_ok in He0 as (? & ? & ?).
  apply charge_fee_ok in He2 as (Hls & Hfee & _).
  pose proof Hi as Hi0.
  apply init_ata_if_needed_ok in Hi0 as (_ & t & _ & _ & _ & Hcase & [A1 B1 _ _]).
  assert (Hnt : non_token (DStream s)) by done.
  destruct (payout_ok _ _ _ _ _ _ _ _ _ (DStream s) _ _ _ vt _ _ _ _ _ Hi ltac:(eassumption) ltac:(eassumption) Hnt Hls He3)
    as (? & dt & Hp).
  exists tr, m, nt, s, x1, vt, dt, fee, x. split; try done.
  - unfold get_current_time in *. rewrite B1 in He. done.
  - rewrite <-Hfee. symmetry. apply oracle_not_feed; [by rewrite wclock_set_dat, B1|].
    intros. rewrite wdat_set_dat, A1. ins.
    destruct Hcase as [(? & _)|(? & _)]; repeat case_decide; subst; split; congruence.
Qed.

Lemma withdraw_max_eq E sg a w w' evs :
  withdraw_max E sg a w = Ok (w', evs) <->
  exists wd, (exists w1 s m, withdraw_accounts E sg a w = Ok (w1, s, m) /\
    get_withdrawable_amount (get_current_time w) (s_times s) (s_amounts s) (s_depleted s) (s_canceled s) = Ok wd) /\
    withdraw E sg a wd w = Ok (w', evs).
Proof.
  unfold withdraw_max, withdraw. split.
  - intros H. inv_all H. destruct x as [[w1 s] m]. inv_all H. exists x. split.
    + exists w1, s, m. split; [done|].
      apply withdraw_accounts_inv in He as (tr & nt & vt & He).
      assert (Hi : init_ata_if_needed E (wa_signer a) (wa_dest a) (wa_withdrawal_recipient a) (wa_mint a) (wa_tp a) w = Ok w1)
        by naive_solver.
      apply init_ata_if_needed_ok in Hi as (_ & t & _ & _ & _ & _ & [_ B1 _ _]).
      unfold get_current_time in *. by rewrite B1 in He0.
    + rewrite He. simpl. done.
  - intros (wd & (w1 & s & m & Ha & Hg) & H). rewrite Ha in *. simpl in *.
    apply withdraw_accounts_inv in Ha as (tr & nt & vt & He).
    assert (Hi : init_ata_if_needed E (wa_signer a) (wa_dest a) (wa_withdrawal_recipient a) (wa_mint a) (wa_tp a) w = Ok w1)
      by naive_solver.
    apply init_ata_if_needed_ok in Hi as (_ & t & _ & _ & _ & _ & [_ B1 _ _]).
    unfold get_current_time in *. rewrite B1, Hg. simpl. done.
Qed.

Lemma check_cancel_ok c d x st dp u : check_cancel c d x st dp = Ok u ->
  c = true /\ d = false /\ x = false /\ st < dp.
Proof.
  unfold check_cancel. destruct d; [discriminate|]. destruct x; [discriminate|].
  destruct c; [|discriminate]. simpl. destruct (dp <=? st) eqn:?; [discriminate|]. bools. auto.
Qed.

Record cancel_facts (E : env) (sg : list key) (a : cancel_accs) (w w' : world)
    (evs : list event) (m : mint) (s : stream_data) (vt dt : tokacc) (streamed : Z) : Prop := {
  cf_signer : xa_sender a ∈ sg;
  cf_sender : xa_sender a = s_sender s;
  cf_mint : wdat w !! xa_mint a = Some (DMint m);
  cf_mint_addr : xa_mint a = s_mint s;
  cf_nft_mint : exists nm, wdat w !! xa_nft_mint a = Some (DMint nm);
  cf_stream : wdat w !! xa_stream a = Some (DStream s);
  cf_stream_addr : create_program_address E PLockup (stream_seeds (xa_nft_mint a)) (s_bump s) = Some (xa_stream a);
  cf_vault : wdat w !! xa_vault a = Some (DToken vt);
  cf_vault_addr : ata_address E (xa_stream a) (xa_mint a) (xa_tp a) = Ok (xa_vault a);
  cf_streamed : get_streamed_amount (get_current_time w) (s_times s) (s_amounts s) (s_depleted s) (s_canceled s) = Ok streamed;
  cf_cancelable : s_cancelable s = true;
  cf_not_depleted : s_depleted s = false;
  cf_not_canceled : s_canceled s = false;
  cf_lt : streamed < deposited (s_amounts s);
  cf_withdrawn : withdrawn (s_amounts s) <= streamed;
  cf_evs : evs = [EvCancel (xa_mint a) (streamed - withdrawn (s_amounts s)) (deposited (s_amounts s) - streamed)
                    (xa_stream a) (xa_nft_mint a)];
  cf_pay : payout_facts E w (wdat w) (xa_stream a)
             (DStream (stream_cancel s (deposited (s_amounts s) - streamed) (streamed - withdrawn (s_amounts s))))
             (xa_vault a) (xa_sender_ata a) vt dt (deposited (s_amounts s) - streamed) (xa_tp a)
             (xa_mint a) (xa_sender a) (xa_stream a) w' }.

Lemma cancel_inv E sg a w w' evs :
  cancel E sg a w = Ok (w', evs) ->
  exists m s vt dt streamed, cancel_facts E sg a w w' evs m s vt dt streamed.
Proof.
  unfold cancel. intros H. inv_all H. loads. injection H as <- <-. subst.
  apply check_cancel_ok in He10 as (? & ? & ? & ?).
  assert (Hnt : non_token (DStream x1)) by done.
  destruct (payout_ok _ _ _ _ _ _ _ _ _ (DStream x1) _ _ _ x2 _ _ _ _ _ He4 ltac:(eassumption) ltac:(eassumption) Hnt
    (lam_step_refl _) He13) as (? & dt & Hp).
  apply init_ata_if_needed_ok in He4 as (_ & t & _ & _ & _ & _ & [_ B1 _ _]).
  exists x0, x1, x2, dt, x9. split; eauto.
  unfold get_current_time in *. by rewrite B1 in He9.
Qed.

Lemma check_renounce_ok c dp st u : check_renounce c dp st = Ok u -> c = true /\ st < dp.
Proof.
  unfold check_renounce. destruct c; [|discriminate]. simpl.
  destruct (dp <=? st) eqn:?; [discriminate|]. bools. auto.
Qed.

Lemma renounce_inv E sg a w w' evs :
  renounce E sg a w = Ok (w', evs) ->
  exists s streamed, ra_sender a ∈ sg /\ ra_sender a = s_sender s /\
    wdat w !! ra_stream a = Some (DStream s) /\
    (exists nm, wdat w !! ra_nft_mint a = Some (DMint nm)) /\
    create_program_address E PLockup (stream_seeds (ra_nft_mint a)) (s_bump s) = Some (ra_stream a) /\
    get_streamed_amount (get_current_time w) (s_times s) (s_amounts s) (s_depleted s) (s_canceled s) = Ok streamed /\
    s_cancelable s = true /\ streamed < deposited (s_amounts s) /\
    w' = set_dat (ra_stream a) (DStream (stream_renounce s)) w /\
    evs = [EvRenounce (s_mint s) (ra_stream a) (ra_nft_mint a)].
Proof.
  unfold renounce. intros H. inv_all H. loads. injection H as <- <-. subst.
  apply check_renounce_ok in He5 as (? & ?). exists x0, x4. split_and!; eauto.
Qed.

Lemma collect_fees_inv E sg a w w' evs :
  lockup_collect_fees E sg a w = Ok (w', evs) ->
  exists tr n, fa_collector a ∈ sg /\ wdat w !! fa_treasury a = Some (DLockupTreasury tr) /\
    fa_collector a = tr_fee_collector tr /\
    create_program_address E PLockup [s_TREASURY] (tr_bump tr) = Some (fa_treasury a) /\
    n = lam w (fa_treasury a) - (rent_min E TREASURY_SPACE + COLLECT_BUFFER) /\ 0 < n /\
    move_lamports (fa_treasury a) (fa_recipient a) n w = Ok w' /\
    evs = [EvLockupFees n (fa_collector a) (fa_recipient a)].
Proof.
  unfold lockup_collect_fees, safe_collectible_amount, check_collect_fees. intros H. inv_all H. loads.
  inv_all He3. loads. injection He3 as <-. injection H as <- <-. subst.
  destruct (Z.max 0 _ =? 0) eqn:Hz in He4; [discriminate|]. bools.
  exists x0, (lam w (fa_treasury a) - (rent_min E TREASURY_SPACE + COLLECT_BUFFER)).
  assert (0 < lam w (fa_treasury a) - (rent_min E TREASURY_SPACE + COLLECT_BUFFER)) by lia.
  rewrite Z.max_r in * by lia.
  split_and!; auto.
Qed.

(** ** Merkle Instant *)

Lemma m_initialize_inv E sg i t f p c w w' evs :
  m_initialize E sg i t f p c w = Ok (w', evs) ->
  exists b, i ∈ sg /\ find_program_address E PMerkle [s_TREASURY] = Ok (t, b) /\ wdat w !! t = None /\ i <> t /\
    data_step w w' (<[t:=DMerkleTreasury (Treasury b f p c)]> (wdat w)) /\ rent_min E TREASURY_SPACE <= lam w' t /\
    evs = [].
Proof.
  unfold m_initialize. intros H. inv_all H. loads. injection H as <- <-.
  apply init_account_ok in He1 as (? & ? & [A B C D] & ?). exists x0. split_and!; auto.
  split; try done. rewrite wdat_set_dat, A. map_solve.
Qed.

Lemma create_campaign_inv E sg a g w w' evs :
  create_campaign E sg a g w = Ok (w', evs) ->
  exists m b, na_creator a ∈ sg /\ wdat w !! na_mint a = Some (DMint m) /\ m_prog m = na_tp a /\
    find_program_address E PMerkle
      (campaign_seeds (na_creator a) (g_root g) (g_start g) (g_expiration g) (g_name g) (na_mint a)) = Ok (na_campaign a, b) /\
    wdat w !! na_campaign a = None /\ wdat w !! na_vault a = None /\ na_campaign a <> na_vault a /\
    ata_address E (na_campaign a) (na_mint a) (na_tp a) = Ok (na_vault a) /\
    let c := Campaign (na_mint a) b (g_start g) (na_creator a) (g_expiration g) 0 (g_ipfs g) (g_root g) (g_name g) in
    campaign_size c <= CAMPAIGN_SPACE /\
    data_step w w' (<[na_campaign a:=DCampaign c]>
      (<[na_vault a:=DToken (TokAcc (na_tp a) (na_mint a) (na_campaign a) 0 false)]> (wdat w))) /\
    evs = [EvCreateCampaign (g_aggregate g) (na_campaign a) (g_name g) (g_start g) (na_creator a) (g_expiration g)
         (g_ipfs g) (g_root g) (g_recipient_count g) (m_decimals m) (na_mint a)].
Proof.
  unfold create_campaign. intros H. inv_all H. loads. injection H as <- <-. bools.
  apply init_account_ok in He2 as (? & ? & Hd & ?).
  apply create_ata_ok in He3 as (Hv & ? & ? & ? & Hd2).
  assert (na_campaign a <> na_vault a) by (intros Heq; rewrite (ds_dat _ _ _ Hd), Heq, lookup_insert in Hv; done).
  rewrite (ds_dat _ _ _ Hd), lookup_insert_ne in Hv by done.
  exists x0, x1. split_and!; auto.
  assert (Hd3 : data_step w x3 (<[na_vault a:=DToken (TokAcc (na_tp a) (na_mint a) (na_campaign a) 0 false)]> (wdat x2))).
  { eapply data_step_trans; [exact Hd | exact Hd2 |]. intros k Hk. ins_cases. }
  destruct Hd3 as [A B C D]. split; try done. rewrite wdat_set_dat, A, (ds_dat _ _ _ Hd). map_solve.
Qed.

Lemma check_claim_ok E now amount st ex i proof root r u :
  check_claim E now amount st ex i proof root r = Ok u ->
  st <= now /\ (ex = 0 \/ ex < 0 \/ now < ex) /\ merkle_loop E (leaf_hash E i r amount) proof = root.
Proof.
  unfold check_claim, has_campaign_started, has_expired.
  destruct (st <=? now) eqn:?; [|discriminate]. simpl.
  destruct (0 <? ex) eqn:?; destruct (ex <=? now) eqn:?; simpl; try discriminate;
  (destruct (bytes_eqb _ _) eqn:Hb; [|discriminate]); unfold bytes_eqb in Hb; intros _; bools; split_and!; auto; lia.
Qed.

Record claim_facts (E : env) (sg : list key) (a : claim_accs) (index amount : Z) (proof : list bytes) (w w' : world)
    (evs : list event) (tr : treasury) (m : mint) (c : campaign) (vt dt : tokacc) (fee : Z) : Prop := {
  lf_signer : la_claimer a ∈ sg;
  lf_treasury : wdat w !! la_treasury a = Some (DMerkleTreasury tr);
  lf_treasury_addr : create_program_address E PMerkle [s_TREASURY] (tr_bump tr) = Some (la_treasury a);
  lf_mint : wdat w !! la_mint a = Some (DMint m);
  lf_mint_addr : la_mint a = c_mint c;
  lf_campaign : wdat w !! la_campaign a = Some (DCampaign c);
  lf_vault : wdat w !! la_vault a = Some (DToken vt);
  lf_vault_addr : ata_address E (la_campaign a) (la_mint a) (la_tp a) = Ok (la_vault a);
  lf_receipt : wdat w !! la_receipt a = None;
  lf_receipt_addr : exists b, find_program_address E PMerkle (receipt_seeds (la_campaign a) index) = Ok (la_receipt a, b);
  lf_receipt_dest : la_receipt a <> la_recipient_ata a;
  lf_oracle : la_chainlink a = tr_chainlink_program tr /\ la_feed a = tr_chainlink_feed tr;
  lf_started : c_start c <= get_current_time w;
  lf_not_expired : has_expired (get_current_time w) (c_expiration c) = false;
  lf_proof : merkle_loop E (leaf_hash E index (la_recipient a) amount) proof = c_root c;
  lf_seeds : create_program_address E PMerkle
         (campaign_seeds (c_creator c) (c_root c) (c_start c) (c_expiration c) (c_name c) (la_mint a)) (c_bump c)
         = Some (la_campaign a);
  lf_fee : convert_usd_fee_to_lamports (claim_fee_usd E) (la_chainlink a) (la_feed a) w = Ok fee;
  lf_evs : evs = [EvClaim amount (la_campaign a) (la_claimer a) (la_receipt a) fee index (la_recipient a)];
  lf_pay : payout_facts E w (<[la_receipt a:=DClaimReceipt]> (wdat w)) (la_campaign a)
             (DCampaign (campaign_claim c (get_current_time w)))
             (la_vault a) (la_recipient_ata a) vt dt amount (la_tp a) (la_mint a) (la_recipient a) (la_campaign a) w' }.

Lemma claim_inv E sg a index amount proof w w' evs :
  claim E sg a index amount proof w = Ok (w', evs) ->
  exists tr m c vt dt fee, claim_facts E sg a index amount proof w w' evs tr m c vt dt fee.
Proof.
  unfold claim. intros H. inv_all H. match goal with p : (world * Z)%type |- _ => destruct p as [w3 fee] end. inv_all H. loads. injection H as <- <-.
  rename x4 into w1, x6 into w2, He4 into Hi, He6 into Hr, He13 into Hfee, He14 into Ht, He12 into Hck.
  assert (Hexp : has_expired (get_current_time w2) (c_expiration x2) = false).
  { revert Hck. unfold check_claim. destruct (negb _); [discriminate|]. by destruct (has_expired _ _). }
  apply check_claim_ok in Hck as (? & _ & ?).
  apply charge_fee_ok in Hfee as ([A B C M] & Hfee & _).
  apply init_ata_if_needed_ok in Hi as (Hata & t & Hm & Hown & Hp & Hcase & Hs1).
  apply init_account_ok in Hr as (Hrn & Hrp & Hs2 & _).
  rewrite (ds_dat _ _ _ Hs1) in Hrn.
  assert (Hrd : la_receipt a <> la_recipient_ata a) by (intros Heq; by rewrite Heq, lookup_insert in Hrn).
  rewrite lookup_insert_ne in Hrn by done.
  assert (Hs : data_step w w2 (<[la_receipt a:=DClaimReceipt]> (<[la_recipient_ata a:=DToken t]> (wdat w)))).
  { rewrite <-(ds_dat _ _ _ Hs1). eapply data_step_trans; [exact Hs1|exact Hs2|]. intros k Hk. ins_cases. }
  clear Hs1 Hs2. destruct Hs as [A1 B1 C1 M1].
  apply transfer_checked_ok in Ht as (tf & td & m & Hf & Hd & Hmm & ? & ? & ? & ? & ? & ? & ? & ? & ? & ? & ? & Hw).
  rewrite A, wdat_set_dat, A1 in Hf, Hd, Hmm.
  assert (Hod : la_campaign a <> la_recipient_ata a).
  { intros Heq. rewrite Heq in He2. destruct Hcase as [(? & _)|(? & _)]; congruence. }
  assert (Hov : la_campaign a <> la_vault a) by congruence.
  assert (Hrv : la_receipt a <> la_vault a) by congruence.
  assert (Hrc : la_receipt a <> la_campaign a) by congruence.
  assert (td = t) as ->.
  { rewrite lookup_insert_ne, lookup_insert_ne, lookup_insert in Hd by done. congruence. }
  assert (tf = x3) as ->.
  { rewrite lookup_insert_ne, lookup_insert_ne in Hf by done. destruct (decide (la_vault a = la_recipient_ata a)) as [Heq|].
    - rewrite Heq, lookup_insert in Hf. rewrite Heq in He3. destruct Hcase as [(? & _)|(? & _)]; congruence.
    - rewrite lookup_insert_ne in Hf by done. congruence. }
  assert (Hnow : get_current_time w2 = get_current_time w) by (unfold get_current_time; by rewrite B1).
  rewrite Hnow in *.
  exists x0, x1, x2, x3, t, fee. bools. split; eauto.
  - rewrite <-Hfee. symmetry. apply oracle_not_feed; [by rewrite wclock_set_dat, B1|].
    intros. rewrite wdat_set_dat, A1. ins.
    destruct Hcase as [(? & _)|(? & _)]; repeat case_decide; subst; split; congruence.
  - assert (Hds : data_step w w3
        (<[la_campaign a:=DCampaign (campaign_claim x2 (get_current_time w))]>
          (<[la_receipt a:=DClaimReceipt]> (<[la_recipient_ata a:=DToken t]> (wdat w))))).
    { split.
      - by rewrite A, wdat_set_dat, A1.
      - rewrite B, !wclock_set_dat. done.
      - rewrite C, !lam_total_set_dat. done.
      - intros k Hk. transitivity (lam w2 k); [by apply M1|].
        rewrite <-(lam_set_dat (la_campaign a) (DCampaign (campaign_claim x2 (get_current_time w))) w2).
        apply M. rewrite wdat_set_dat, A1. ins_cases. }
    rewrite (ds_clock _ _ _ Hds) in Hw.
    split; auto.
    + destruct Hcase as [(?&?&->&?)|(?&?)]; [right; by simplify_eq/= | by left].
    + intros ?. destruct Hw as [[? ?]|(? & ? & ?)]; done.
    + unfold payout. destruct Hw as [[Heq ->]|(Hne & ? & ->)].
      * rewrite decide_True by done. destruct Hds as [D1 D2 D3 D4]. split; try done.
        rewrite D1. f_equal. f_equal. apply insert_id. rewrite <-Heq in *.
        destruct Hcase as [(? & _)|(? & _)]; congruence.
      * rewrite decide_False by done. destruct Hds as [D1 D2 D3 D4]. split; try done.
        rewrite !wdat_set_dat, D1. map_solve.
Qed.

Record clawback_facts (E : env) (sg : list key) (a : clawback_accs) (amount : Z) (w w' : world)
    (evs : list event) (m : mint) (c : campaign) (vt dt : tokacc) : Prop := {
  bf_signer : ba_creator a ∈ sg;
  bf_creator : ba_creator a = c_creator c;
  bf_mint : wdat w !! ba_mint a = Some (DMint m);
  bf_mint_addr : ba_mint a = c_mint c;
  bf_campaign : wdat w !! ba_campaign a = Some (DCampaign c);
  bf_vault : wdat w !! ba_vault a = Some (DToken vt);
  bf_vault_addr : ata_address E (ba_campaign a) (ba_mint a) (ba_tp a) = Ok (ba_vault a);
  bf_allowed : check_clawback (get_current_time w) (c_expiration c) (c_first_claim c) = Ok tt;
  bf_seeds : create_program_address E PMerkle
         (campaign_seeds (c_creator c) (c_root c) (c_start c) (c_expiration c) (c_name c) (ba_mint a)) (c_bump c)
         = Some (ba_campaign a);
  bf_evs : evs = [EvClawback amount (ba_campaign a) (ba_creator a) (ba_recipient a)];
  bf_pay : payout_facts E w (wdat w) (ba_campaign a) (DCampaign c) (ba_vault a) (ba_recipient_ata a) vt dt amount
             (ba_tp a) (ba_mint a) (ba_recipient a) (ba_campaign a) w' }.

Lemma clawback_inv E sg a amount w w' evs :
  clawback E sg a amount w = Ok (w', evs) ->
  exists m c vt dt, clawback_facts E sg a amount w w' evs m c vt dt.
Proof.
  unfold clawback. intros H. inv_all H. loads. injection H as <- <-.
  pose proof He3 as Hi0.
  apply init_ata_if_needed_ok in Hi0 as (_ & t & _ & _ & _ & Hcase & [A1 B1 C1 D1]).
  assert (Hnt : non_token (DCampaign x1)) by done.
  assert (Hls : lam_step (set_dat (ba_campaign a) (DCampaign x1) x3) x3).
  { split; try done.
    rewrite wdat_set_dat. symmetry. apply insert_id. rewrite A1, lookup_insert_ne; [done|].
    intros Heq. rewrite Heq in Hcase. destruct Hcase as [(? & _)|(? & _)]; congruence. }
  destruct (payout_ok _ _ _ _ _ _ _ _ _ (DCampaign x1) _ _ _ x2 _ _ _ _ _ He3 ltac:(eassumption) ltac:(eassumption) Hnt
    Hls He8) as (? & dt & Hp).
  exists x0, x1, x2, dt. bools. split; eauto.
  unfold get_current_time in *. rewrite B1 in He7. by destruct x7.
Qed.

Lemma merkle_collect_fees_inv E sg a w w' evs :
  merkle_collect_fees E sg a w = Ok (w', evs) ->
  exists tr n, fa_collector a ∈ sg /\ wdat w !! fa_treasury a = Some (DMerkleTreasury tr) /\
    fa_collector a = tr_fee_collector tr /\
    create_program_address E PMerkle [s_TREASURY] (tr_bump tr) = Some (fa_treasury a) /\
    n = lam w (fa_treasury a) - (rent_min E TREASURY_SPACE + COLLECT_BUFFER) /\ 0 < n /\
    move_lamports (fa_treasury a) (fa_recipient a) n w = Ok w' /\
    evs = [EvMerkleFees n (fa_collector a) (fa_recipient a)].
Proof.
  unfold merkle_collect_fees, safe_collectible_amount, m_check_collect_fees. intros H. inv_all H. loads.
  inv_all He3. loads. injection He3 as <-. injection H as <- <-. subst.
  destruct (Z.max 0 _ =? 0) eqn:Hz in He4; [discriminate|]. bools.
  exists x0, (lam w (fa_treasury a) - (rent_min E TREASURY_SPACE + COLLECT_BUFFER)).
  assert (0 < lam w (fa_treasury a) - (rent_min E TREASURY_SPACE + COLLECT_BUFFER)) by lia.
  rewrite Z.max_r in * by lia.
  split_and!; auto.
Qed.
