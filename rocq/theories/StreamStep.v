(** What each Lockup instruction does to the streams. *)
From Verif Require Export Step.

(** ** Tokens paid out of a stream, read off the events *)
Definition paid_by (k : key) (e : event) : Z :=
  match e with
  | EvWithdraw _ _ stream _ amount => if stream =? k then amount else 0
  | EvCancel _ _ sender_amount stream _ => if stream =? k then sender_amount else 0
  | _ => 0
  end.
Definition paid_out (k : key) (evs : list event) : Z := foldr (fun e acc => paid_by k e + acc) 0 evs.

Lemma paid_out_app k e1 e2 : paid_out k (e1 ++ e2) = paid_out k e1 + paid_out k e2.
Proof. induction e1; simpl; lia. Qed.

(** ** Parameters of a new stream *)

Lemma check_create_valid dep st cl en su cu :
  0 <= dep -> 0 <= st -> 0 <= cl -> 0 <= su -> 0 <= cu -> dep <= U64_MAX ->
  check_create dep st cl en su cu = Ok tt <-> valid_terms dep st cl en su cu.
Proof.
  intros ? ? ? ? ? ?. unfold check_create. split.
  - destruct (dep =? 0) eqn:?; [discriminate|]. destruct (st =? 0) eqn:?; [discriminate|].
    destruct (en <=? st) eqn:?; [discriminate|]. intros H'. inv_all H'.
    destruct (su + cu <=? U64_MAX) eqn:?; [|discriminate]. injection He0 as <-.
    destruct (dep <? su + cu) eqn:?; [discriminate|].
    destruct (0 <? cl) eqn:?; [destruct (cl <=? st) eqn:?; [discriminate|]; destruct (en <=? cl) eqn:?; [discriminate|]
      |destruct (0 <? cu) eqn:?; [discriminate|]]; bools; split; lia.
  - intros [Ha1 Ha2 Ha3 Ha4 Ha5].
    rewrite (proj2 (Z.eqb_neq dep 0)), (proj2 (Z.eqb_neq st 0)), (proj2 (Z.leb_gt en st)) by lia.
    destruct Ha4 as [[-> ->]|[? ?]].
    + simpl. rewrite (proj2 (Z.leb_le (su + 0) U64_MAX)) by lia. cbn [rbind]. by rewrite (proj2 (Z.ltb_ge dep (su + 0))) by lia.
    + rewrite (proj2 (Z.ltb_lt 0 cl)), (proj2 (Z.leb_gt cl st)), (proj2 (Z.leb_gt en cl)) by lia. cbn [rbind].
      rewrite (proj2 (Z.leb_le (su + cu) U64_MAX)) by lia. cbn [rbind]. by rewrite (proj2 (Z.ltb_ge dep (su + cu))) by lia.
Qed.

Lemma stream_create_ok mi b p se : create_args_ok p ->
  check_create (p_deposit p) (p_start p) (p_cliff p) (p_end p) (p_start_unlock p) (p_cliff_unlock p) = Ok tt ->
  stream_ok (stream_create mi b (p_cliff p) (p_cliff_unlock p) (p_deposit p) (p_end p) (p_salt p) (p_cancelable p) se
    (p_start p) (p_start_unlock p)).
Proof.
  intros (? & ? & ? & ? & ? & ? & ?) Hck. apply check_create_valid in Hck; try lia. pose proof (vt_deposit _ _ _ _ _ _ Hck).
  split; simpl; try done; try lia.
Qed.

(** ** Changes of an existing stream *)

Inductive stream_change (E : env) (sg : list key) (w w' : world) (evs : list event) (k : key) (s : stream_data)
  : lockup_ix -> stream_data -> Prop :=
| sc_same ix : paid_out k evs = 0 -> stream_change E sg w w' evs k s ix s
| sc_renounce a streamed :
    ra_stream a = k -> ra_sender a ∈ sg -> ra_sender a = s_sender s ->
    get_streamed_amount (get_current_time w) (s_times s) (s_amounts s) (s_depleted s) (s_canceled s) = Ok streamed ->
    s_cancelable s = true -> streamed < deposited (s_amounts s) -> paid_out k evs = 0 ->
    stream_change E sg w w' evs k s (LRenounce a) (stream_renounce s)
| sc_cancel a m vt dt streamed :
    xa_stream a = k -> cancel_facts E sg a w w' evs m s vt dt streamed ->
    paid_out k evs = deposited (s_amounts s) - streamed ->
    stream_change E sg w w' evs k s (LCancel a)
      (stream_cancel s (deposited (s_amounts s) - streamed) (streamed - withdrawn (s_amounts s)))
| sc_withdraw ix a amount tr m nt s' vt dt fee wd :
    (ix = LWithdraw a amount \/ (ix = LWithdrawMax a /\ amount = wd)) -> 0 < amount -> wa_stream a = k ->
    withdraw_facts E sg a amount w w' evs tr m nt s s' vt dt fee wd -> paid_out k evs = amount ->
    stream_change E sg w w' evs k s ix s'.

Lemma payout_stream E w D own newd vault dest vt dt amount tp mintk owner auth w' k s :
  payout_facts E w D own newd vault dest vt dt amount tp mintk owner auth w' ->
  wdat w !! vault = Some (DToken vt) -> (forall i, wdat w !! i <> None -> D !! i = wdat w !! i) ->
  wdat w !! k = Some (DStream s) -> k <> own -> wdat w' !! k = Some (DStream s).
Proof.
  intros F Hv HD Hk Hne. rewrite (ds_dat _ _ _ (pf_step _ _ _ _ _ _ _ _ _ _ _ _ _ _ _ F)).
  rewrite payout_lookup_other; [rewrite HD; congruence|done|congruence|].
  intros ->. destruct (pf_dest _ _ _ _ _ _ _ _ _ _ _ _ _ _ _ F) as [?|[? _]]; congruence.
Qed.
Lemma payout_own E w D own d0 newd vault dest vt dt amount tp mintk owner auth w' :
  payout_facts E w D own newd vault dest vt dt amount tp mintk owner auth w' ->
  wdat w !! vault = Some (DToken vt) -> wdat w !! own = Some d0 -> is_token d0 = false -> wdat w' !! own = Some newd.
Proof.
  intros F Hv Ho Ht. rewrite (ds_dat _ _ _ (pf_step _ _ _ _ _ _ _ _ _ _ _ _ _ _ _ F)).
  apply payout_lookup_own.
  - intros ->. rewrite Ho in Hv. by injection Hv as ->.
  - intros ->. destruct (pf_dest _ _ _ _ _ _ _ _ _ _ _ _ _ _ _ F) as [Hd|[Hd _]]; rewrite Ho in Hd; [by injection Hd as ->|done].
Qed.

Lemma lockup_stream E sg ix w w' evs k s : lockup_effect E sg w ix w' evs -> wdat w !! k = Some (DStream s) ->
  exists s', wdat w' !! k = Some (DStream s') /\ stream_change E sg w w' evs k s ix s'.
Proof.
  intros Heff Hk.
  destruct Heff as [a f p c tb nb ? F|? a p ct nc cm dm sb s1 nm c0 c1 ? ? Hix Hargs F|a s1 st ? ? Hsg Hse Hs ? ? ? ? -> ->|a m s1 vt dt st ? ? F
    |? a am tr m nt s1 s' vt dt fee wd ? ? Hix Ham F|a tr n ? Hc Htr _ _ _ _ Hmv].
  - exists s. split; [|by apply sc_same]. destruct F. rewrite !Forall_cons in if_fresh.
    destruct if_fresh as (? & ? & ? & ? & ? & ? & _). rewrite (ds_dat _ _ _ if_step).
    rewrite !lookup_insert_ne by congruence. done.
  - exists s. pose proof (create_effects _ _ _ _ _ _ _ _ _ _ _ _ _ _ _ _ F) as Hc.
    destruct F. split; [|apply sc_same; by rewrite rf_evs].
    destruct rf_coll_md_kind as (? & ? & ? & ? & ? & ? & -> & _).
    rewrite (ce_other _ _ _ _ _ _ _ _ _ Hc); [done|]. rewrite !not_elem_of_cons. split_and!; try congruence. apply not_elem_of_nil.
  - rewrite wdat_set_dat. destruct (decide (k = ra_stream a)) as [->|].
    + rewrite lookup_insert. assert (s1 = s) as -> by congruence. eexists. split; [done|]. by eapply sc_renounce.
    + rewrite lookup_insert_ne by done. exists s. split; [done|]. by apply sc_same.
  - destruct (decide (k = xa_stream a)) as [->|].
    + assert (s1 = s) as ->. { pose proof (cf_stream _ _ _ _ _ _ _ _ _ _ _ F). congruence. }
      eexists. split; [|eapply sc_cancel; [done|exact F|]].
      * eapply payout_own; [apply (cf_pay _ _ _ _ _ _ _ _ _ _ _ F)|apply (cf_vault _ _ _ _ _ _ _ _ _ _ _ F)|exact Hk|done].
      * rewrite (cf_evs _ _ _ _ _ _ _ _ _ _ _ F). simpl. rewrite Z.eqb_refl. lia.
    + exists s. split; [|apply sc_same].
      * eapply payout_stream; [apply (cf_pay _ _ _ _ _ _ _ _ _ _ _ F)|apply (cf_vault _ _ _ _ _ _ _ _ _ _ _ F)|done|done|done].
      * rewrite (cf_evs _ _ _ _ _ _ _ _ _ _ _ F). simpl. by rewrite (proj2 (Z.eqb_neq _ _)) by done.
  - destruct (decide (k = wa_stream a)) as [->|].
    + assert (s1 = s) as ->. { pose proof (wf_stream _ _ _ _ _ _ _ _ _ _ _ _ _ _ _ _ F). congruence. }
      exists s'. split; [|eapply sc_withdraw; [done|done|done|exact F|]].
      * eapply payout_own; [apply (wf_pay _ _ _ _ _ _ _ _ _ _ _ _ _ _ _ _ F)|apply (wf_vault _ _ _ _ _ _ _ _ _ _ _ _ _ _ _ _ F)|exact Hk|done].
      * rewrite (wf_evs _ _ _ _ _ _ _ _ _ _ _ _ _ _ _ _ F). simpl. rewrite Z.eqb_refl. lia.
    + exists s. split; [|apply sc_same].
      * eapply payout_stream; [apply (wf_pay _ _ _ _ _ _ _ _ _ _ _ _ _ _ _ _ F)|apply (wf_vault _ _ _ _ _ _ _ _ _ _ _ _ _ _ _ _ F)|done|done|done].
      * rewrite (wf_evs _ _ _ _ _ _ _ _ _ _ _ _ _ _ _ _ F). simpl. by rewrite (proj2 (Z.eqb_neq _ _)) by done.
  - exists s. apply move_lamports_ok in Hmv as (-> & _). split; [done|]. by apply sc_same.
Qed.

(** ** New streams *)

Lemma payout_back E w D own newd vault dest vt dt amount tp mintk owner auth w' k d :
  payout_facts E w D own newd vault dest vt dt amount tp mintk owner auth w' ->
  wdat w' !! k = Some d -> is_token d = false -> k = own /\ d = newd \/ D !! k = Some d.
Proof.
  intros F. rewrite (ds_dat _ _ _ (pf_step _ _ _ _ _ _ _ _ _ _ _ _ _ _ _ F)). unfold payout. intros Hk Ht.
  destruct (decide (vault = dest)).
  - apply lookup_insert_Some in Hk as [[<- <-]|[? Hk]]; auto.
  - apply lookup_insert_Some in Hk as [[<- <-]|[? Hk]]; [done|].
    apply lookup_insert_Some in Hk as [[<- <-]|[? Hk]]; [done|].
    apply lookup_insert_Some in Hk as [[<- <-]|[? Hk]]; auto.
Qed.

Lemma lockup_new_stream E sg ix w w' evs k s : lockup_effect E sg w ix w' evs -> wdat w' !! k = Some (DStream s) ->
  (exists s0, wdat w !! k = Some (DStream s0)) \/
  exists a p ct nc cm dm sb name c0 c1,
    (ix = LCreateTs a p \/ exists q, ix = LCreateDur a q /\ p = dur_args q (get_current_time w)) /\
    create_args_ok p /\ create_facts E sg a p w w' evs ct nc cm dm sb s name c0 c1 /\ k = ca_stream a.
Proof.
  intros Heff Hk.
  destruct Heff as [a f p c tb nb ? F|? a p ct nc cm dm sb s1 nm c0 c1 ? ? Hix Hargs F|a s1 st ? ? Hsg Hse Hs ? ? ? ? -> ->|a m s1 vt dt st ? ? F
    |? a am tr m nt s1 s' vt dt fee wd ? ? Hix Ham F|a tr n ? Hc Htr _ _ _ _ Hmv].
  - left. exists s. destruct F. rewrite (ds_dat _ _ _ if_step) in Hk.
    repeat (apply lookup_insert_Some in Hk as [[_ ?]|[_ Hk]]; [discriminate|]). done.
  - pose proof (create_effects _ _ _ _ _ _ _ _ _ _ _ _ _ _ _ _ F) as Hc.
    destruct (decide (k = ca_stream a)) as [->|Hne].
    + rewrite (ce_stream _ _ _ _ _ _ _ _ _ Hc) in Hk. injection Hk as <-. right. 
      exists a, p, ct, nc, cm, dm, sb, nm, c0, c1. done.
    + left. exists s. pose proof (rf_coll_md_kind _ _ _ _ _ _ _ _ _ _ _ _ _ _ _ _ F) as (? & ? & ? & ? & ? & ? & _ & Hc1).
      destruct Hc. rewrite <-ce_other; [done|].
      rewrite !not_elem_of_cons. split_and!; try congruence. apply not_elem_of_nil.
  - left. rewrite wdat_set_dat in Hk. apply lookup_insert_Some in Hk as [[<- _]|[_ Hk]]; eauto.
  - left. destruct (payout_back _ _ _ _ _ _ _ _ _ _ _ _ _ _ _ _ _ (cf_pay _ _ _ _ _ _ _ _ _ _ _ F) Hk eq_refl) as [[-> _]|?]; [|eauto].
    exists s1. apply (cf_stream _ _ _ _ _ _ _ _ _ _ _ F).
  - left. destruct (payout_back _ _ _ _ _ _ _ _ _ _ _ _ _ _ _ _ _ (wf_pay _ _ _ _ _ _ _ _ _ _ _ _ _ _ _ _ F) Hk eq_refl) as [[-> _]|?]; [|eauto].
    exists s1. apply (wf_stream _ _ _ _ _ _ _ _ _ _ _ _ _ _ _ _ F).
  - left. apply move_lamports_ok in Hmv as (Hd & _). rewrite Hd in Hk. eauto.
Qed.

(** ** The stream invariant is kept *)

Lemma now_range w : 0 <= get_current_time w <= U64_MAX.
Proof. apply as_u64_range. Qed.

Lemma withdrawable_entitled s now x : stream_ok s -> 0 <= now <= U64_MAX ->
  get_withdrawable_amount now (s_times s) (s_amounts s) (s_depleted s) (s_canceled s) = Ok x ->
  x = entitled s now - withdrawn (s_amounts s) /\ withdrawn (s_amounts s) <= entitled s now.
Proof.
  intros Hok Hnow. unfold get_withdrawable_amount. rewrite streamed_entitled by done. cbn [rbind].
  intros [-> ?]%u64_sub_ok. done.
Qed.

Lemma stream_withdraw_keeps s amount s' now wd : stream_ok s -> 0 <= now <= U64_MAX ->
  s_depleted s = false -> 0 < amount -> amount <= wd ->
  get_withdrawable_amount now (s_times s) (s_amounts s) (s_depleted s) (s_canceled s) = Ok wd ->
  stream_withdraw s amount = Ok s' -> stream_ok s' /\ withdrawn (s_amounts s') = withdrawn (s_amounts s) + amount.
Proof.
  intros Hok Hnow Hnd Ha Hle Hwd Hw.
  destruct (withdrawable_entitled _ _ _ Hok Hnow Hwd) as [-> ?].
  pose proof (entitled_bounds s now Hok) as Hb.
  apply stream_withdraw_ok in Hw as (? & ? & ->). destruct Hok. split; [|done]. split; simpl; try done; try lia.
  - rewrite Hnd in *. destruct (_ <=? _) eqn:E1; bools; split; try done; lia.
  - destruct (_ <=? _) eqn:E1; intros H'; [done|]. apply so_flags. by rewrite Hnd in *.
Qed.

Lemma stream_cancel_keeps s now streamed : stream_ok s -> 0 <= now <= U64_MAX ->
  s_depleted s = false -> s_canceled s = false ->
  get_streamed_amount now (s_times s) (s_amounts s) (s_depleted s) (s_canceled s) = Ok streamed ->
  streamed < deposited (s_amounts s) -> withdrawn (s_amounts s) <= streamed ->
  stream_ok (stream_cancel s (deposited (s_amounts s) - streamed) (streamed - withdrawn (s_amounts s))).
Proof.
  intros Hok Hnow Hnd Hnc Hst Hlt Hwd. rewrite streamed_entitled in Hst by done. injection Hst as <-.
  pose proof (entitled_bounds s now Hok) as Hb. destruct Hok. split; simpl; try done; try lia.
  - rewrite Hnd. destruct (_ =? 0) eqn:E1; bools; split; try done; lia.
Qed.

Lemma stream_renounce_keeps s : stream_ok s -> stream_ok (stream_renounce s).
Proof. intros []. split; simpl; try done. Qed.

Lemma stream_change_ok E sg w w' evs k s ix s' : stream_ok s -> stream_change E sg w w' evs k s ix s' ->
  stream_ok s' /\
  withdrawn (s_amounts s') + refunded (s_amounts s') = withdrawn (s_amounts s) + refunded (s_amounts s) + paid_out k evs /\
  0 <= paid_out k evs.
Proof.
  intros Hok [? Hp|a st ? ? ? ? ? ? Hp|a m vt dt st ? F Hp|? a am tr m nt ? vt dt fee wd Hix Ham ? F Hp].
  - split; [done|lia].
  - split; [by apply stream_renounce_keeps|]. simpl. lia.
  - destruct F. split.
    + by eapply (stream_cancel_keeps s (get_current_time w)); [|apply now_range|..].
    + simpl. assert (refunded (s_amounts s) = 0); [|lia]. pose proof (so_canceled _ Hok) as [_ Hc]. pose proof (so_refunded _ Hok).
      destruct (decide (refunded (s_amounts s) = 0)); [done|]. rewrite Hc in cf_not_canceled by lia. done.
  - destruct F. 
    destruct (stream_withdraw_keeps _ _ _ (get_current_time w) _ Hok (now_range w) wf_not_depleted Ham wf_le wf_wd wf_new) as [? Hw].
    split; [done|]. apply stream_withdraw_ok in wf_new as (_ & _ & ->). simpl in *. lia.
Qed.
