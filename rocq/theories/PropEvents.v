(** C60: what is logged and returned, byte for byte. *)
From Verif Require Export PropBorsh PropFees.

(** The type of the fields that other programs own: an SPL mint's decimals are a u8, lamports a u64. *)
Record typed (w : world) : Prop := {
  ty_decimals : forall k m, wdat w !! k = Some (DMint m) -> 0 <= m_decimals m <= 255;
  ty_lamports : forall k, 0 <= lam w k <= U64_MAX }.

(** ** Codecs of events *)
Lemma ev_cancel_ok : codec_ok c_ev_cancel. Proof. unfold c_ev_cancel. codec_tac. Qed.
Lemma ev_create_ok : codec_ok c_ev_create. Proof. unfold c_ev_create. codec_tac. Qed.
Lemma ev_fees_ok : codec_ok c_ev_fees. Proof. unfold c_ev_fees. codec_tac. Qed.
Lemma ev_renounce_ok : codec_ok c_ev_renounce. Proof. unfold c_ev_renounce. codec_tac. Qed.
Lemma ev_withdraw_ok : codec_ok c_ev_withdraw. Proof. unfold c_ev_withdraw. codec_tac. Qed.
Lemma ev_claim_ok : codec_ok c_ev_claim. Proof. unfold c_ev_claim. codec_tac. Qed.
Lemma ev_clawback_ok : codec_ok c_ev_clawback. Proof. unfold c_ev_clawback. codec_tac. Qed.
Lemma ev_campaign_ok : codec_ok c_ev_campaign. Proof. unfold c_ev_campaign. codec_tac. Qed.

Lemma lockup_event_discs : NoDup (map arm_disc lockup_events) /\ Forall (fun d => length d = 8%nat) (map arm_disc lockup_events).
Proof. split; [refine (bool_decide_unpack _ _); vm_compute; exact I|apply len8_ok; vm_compute; reflexivity]. Qed.
Lemma merkle_event_discs : NoDup (map arm_disc merkle_events) /\ Forall (fun d => length d = 8%nat) (map arm_disc merkle_events).
Proof. split; [refine (bool_decide_unpack _ _); vm_compute; exact I|apply len8_ok; vm_compute; reflexivity]. Qed.

(** The events of each program. *)
Definition by_lockup (e : event) : bool :=
  match e with EvCreateStream _ _ _ _ _ _ | EvCancel _ _ _ _ _ | EvRenounce _ _ _ | EvWithdraw _ _ _ _ _ | EvLockupFees _ _ _ => true | _ => false end.
Local Opaque discriminator.
Theorem C60_lockup_decodes : forall e rest, by_lockup e = true -> event_ok e = true -> dispatch lockup_events (event_data e ++ rest) = Some e.
Proof.
  intros e rest Hb Hok. unfold event_data. destruct e; try discriminate Hb; cbn [event_ok event_fields] in *.
  - one_arm lockup_event_discs c_ev_create (fun '(d, m, r, salt, s, n) => EvCreateStream salt d m r s n) (decimals, mintk, recipient, salt, stream, nft) ev_create_ok.
    unfold lockup_events. in_list.
  - one_arm lockup_event_discs c_ev_cancel (fun '(m, ra, sa, s, n) => EvCancel m ra sa s n) (mintk, recipient_amount, sender_amount, stream, nft) ev_cancel_ok.
    unfold lockup_events. in_list.
  - one_arm lockup_event_discs c_ev_renounce (fun '(m, s, n) => EvRenounce m s n) (mintk, stream, nft) ev_renounce_ok. unfold lockup_events. in_list.
  - one_arm lockup_event_discs c_ev_withdraw (fun '(m, f, s, n, a) => EvWithdraw m f s n a) (mintk, fee, stream, nft, amount) ev_withdraw_ok.
    unfold lockup_events. in_list.
  - one_arm lockup_event_discs c_ev_fees (fun '(a, c, r) => EvLockupFees a c r) (amount, collector, recipient) ev_fees_ok. unfold lockup_events. in_list.
Qed.
Theorem C60_merkle_decodes : forall e rest, by_lockup e = false -> event_ok e = true -> dispatch merkle_events (event_data e ++ rest) = Some e.
Proof.
  intros e rest Hb Hok. unfold event_data. destruct e; try discriminate Hb; cbn [event_ok event_fields] in *.
  - one_arm merkle_event_discs c_ev_claim (fun '(a, c, cl, re, f, i, r) => EvClaim a c cl re f i r) (amount, campaign, claimer, receipt, fee, index, recipient) ev_claim_ok.
    unfold merkle_events. in_list.
  - one_arm merkle_event_discs c_ev_clawback (fun '(a, c, cr, r) => EvClawback a c cr r) (amount, campaign, creator, recipient) ev_clawback_ok.
    unfold merkle_events. in_list.
  - one_arm merkle_event_discs c_ev_campaign (fun '(ag, c, na, st, cr, ex, ip, ro, rc, d, m) => EvCreateCampaign ag c na st cr ex ip ro rc d m)
      (aggregate, campaign, name, start, creator, expiration, ipfs, root, recipient_count, decimals, mintk) ev_campaign_ok.
    unfold merkle_events. in_list.
  - one_arm merkle_event_discs c_ev_fees (fun '(a, c, r) => EvMerkleFees a c r) (amount, collector, recipient) ev_fees_ok. unfold merkle_events. in_list.
Qed.
(** Conversely an indexer reads an event only from that event's bytes. *)
Theorem C60_lockup_exact : forall l e, byte_list l -> dispatch lockup_events l = Some e ->
  by_lockup e = true /\ event_ok e = true /\ exists rest, l = event_data e ++ rest.
Proof.
  intros l e Hl H. apply dispatch_sound in H as (a & r & r' & Ha & -> & Hd). apply byte_list_app in Hl as [_ Hb].
  unfold lockup_events in Ha. arms_cases Ha.
  all: first [apply (arm_sound _ _ _ _ _ _ ev_cancel_ok Hb) in Hd | apply (arm_sound _ _ _ _ _ _ ev_create_ok Hb) in Hd
    | apply (arm_sound _ _ _ _ _ _ ev_fees_ok Hb) in Hd | apply (arm_sound _ _ _ _ _ _ ev_renounce_ok Hb) in Hd
    | apply (arm_sound _ _ _ _ _ _ ev_withdraw_ok Hb) in Hd].
  all: destruct Hd as (v & -> & Hv & ->); repeat match goal with x : _ * _ |- _ => destruct x end.
  all: (split; [reflexivity|]); (split; [exact Hv|]); eexists; unfold event_data; rewrite <- app_assoc; reflexivity.
Qed.
Theorem C60_merkle_exact : forall l e, byte_list l -> dispatch merkle_events l = Some e ->
  by_lockup e = false /\ event_ok e = true /\ exists rest, l = event_data e ++ rest.
Proof.
  intros l e Hl H. apply dispatch_sound in H as (a & r & r' & Ha & -> & Hd). apply byte_list_app in Hl as [_ Hb].
  unfold merkle_events in Ha. arms_cases Ha.
  all: first [apply (arm_sound _ _ _ _ _ _ ev_claim_ok Hb) in Hd | apply (arm_sound _ _ _ _ _ _ ev_clawback_ok Hb) in Hd
    | apply (arm_sound _ _ _ _ _ _ ev_campaign_ok Hb) in Hd | apply (arm_sound _ _ _ _ _ _ ev_fees_ok Hb) in Hd].
  all: destruct Hd as (v & -> & Hv & ->); repeat match goal with x : _ * _ |- _ => destruct x end.
  all: (split; [reflexivity|]); (split; [exact Hv|]); eexists; unfold event_data; rewrite <- app_assoc; reflexivity.
Qed.

(** ** Every event the programs log is well typed *)
Lemma fee_range fee r d now f : 0 <= fee -> convert_fee fee r d now = Ok f -> 0 <= f <= U64_MAX.
Proof.
  intros Hf H. pose proof (fee_nonneg _ _ _ _ _ Hf H) as H0. split; [done|]. unfold convert_fee in H.
  destruct (_ =? 0); [injection H as <-; done|]. destruct r as [r| |]; [|injection H as <-; done|discriminate H].
  destruct (_ <=? 0); [injection H as <-; done|]. cbv zeta in H. destruct (_ <? _); [injection H as <-; done|].
  destruct (_ <? _); [injection H as <-; done|]. destruct d as [d| |]; [|injection H as <-; done|discriminate H].
  unfold fee_from_price in H. destruct (_ =? 8).
  - unfold u64_mul in H. destruct (Z.leb_spec (fee * LAMPORTS_PER_SOL) U64_MAX) as [Hm|]; [|done]. cbn [rbind] in H.
    unfold u64_div in H. destruct (as_u64 (r_answer r) =? 0) eqn:Hz; [done|]. injection H as <-.
    assert (0 <= as_u64 (r_answer r)) by (apply Z.mod_pos_bound; done). apply Z.eqb_neq in Hz.
    transitivity (fee * LAMPORTS_PER_SOL); [|done]. assert (0 <= fee * LAMPORTS_PER_SOL) by (unfold LAMPORTS_PER_SOL; lia).
    apply Z.div_le_upper_bound; [lia|]. nia.
  - destruct (u128_pow _ _) as [x|]; [|done]. cbn [rbind] in H. destruct (u128_mul _ _) as [y|]; [|done]. cbn [rbind] in H.
    destruct (u128_div _ _) as [z|]; [|done]. cbn [rbind] in H. injection H as <-. unfold as_u64.
    pose proof (Z.mod_pos_bound z 18446744073709551616) as Hb. unfold U64_MAX. lia.
Qed.
Ltac ev_fields := repeat apply pair_val; first [by apply k_ok | by apply u64_ok | by apply u128_ok | by apply u8_ok | idtac].

Theorem C60_lockup_events : forall E sg ix w w' evs, env_ok E -> reachable E w -> typed w -> lockup_exec E sg ix w = Ok (w', evs) ->
  forall e, e ∈ evs -> forall rest, dispatch lockup_events (event_data e ++ rest) = Some e.
Proof.
  intros E sg ix w w' evs HE Hr Hty Hx e He rest. pose proof (reachable_inv _ _ HE Hr) as Hi.
  cut (by_lockup e = true /\ event_ok e = true); [intros [? ?]; by apply C60_lockup_decodes|].
  apply lockup_exec_effect in Hx as [Hok Heff].
  destruct Heff as [a f p c tb nb w' F|ix a p ct nc cm dm sb s name c0 c1 w' evs Hix Hargs F|a s streamed w' evs ? ? Hs Ha ? ? ? -> ->
    |a m s vt dt streamed w' evs F|ix a amount tr m nt s s' vt dt fee wd w' evs Hix Hpos F|a tr n w' ? Ht Hcol ? -> Hn Hmv].
  - by apply elem_of_nil in He.
  - assert (create_accs_ok a = true) as Hacc by (destruct Hix as [->|(q & -> & _)]; cbn [lockup_ix_ok] in Hok; by apply andb_prop in Hok as [[? _]%andb_prop _]).
    rewrite (rf_evs _ _ _ _ _ _ _ _ _ _ _ _ _ _ _ _ F) in He. apply elem_of_list_singleton in He as ->. split; [done|].
    destruct Hargs as (Hsalt & _). unfold create_accs_ok in Hacc. ranges. cbn [event_ok]. unfold c_ev_create. ev_fields.
    apply u8_ok, (ty_decimals _ Hty _ _ (rf_deposit_mint _ _ _ _ _ _ _ _ _ _ _ _ _ _ _ _ F)).
  - apply elem_of_list_singleton in He as ->. split; [done|]. cbn in Hok. ranges. cbn [event_ok]. unfold c_ev_renounce. ev_fields.
    apply k_ok. apply (li_stream _ _ (inv_lockup _ _ Hi) _ _ Hs).
  - rewrite (cf_evs _ _ _ _ _ _ _ _ _ _ _ F) in He. apply elem_of_list_singleton in He as ->. split; [done|]. cbn in Hok. ranges.
    pose proof (inv_stream_ok _ _ _ _ Hi (cf_stream _ _ _ _ _ _ _ _ _ _ _ F)) as Hso.
    pose proof (cf_lt _ _ _ _ _ _ _ _ _ _ _ F). pose proof (cf_withdrawn _ _ _ _ _ _ _ _ _ _ _ F).
    assert (0 <= withdrawn (s_amounts s) /\ deposited (s_amounts s) <= U64_MAX) as [? ?] by (clear - Hso; destruct Hso as [[]]; lia).
    cbn [event_ok]. unfold c_ev_cancel. ev_fields; apply u64_ok; lia.
  - assert (withdraw_accs_ok a = true) as Hacc.
    { destruct Hix as [->|[-> _]]; cbn in Hok; [by apply andb_prop in Hok as [? _]|done]. }
    rewrite (wf_evs _ _ _ _ _ _ _ _ _ _ _ _ _ _ _ _ F) in He. apply elem_of_list_singleton in He as ->. split; [done|].
    unfold withdraw_accs_ok in Hacc. ranges.
    pose proof (pf_amount _ _ _ _ _ _ _ _ _ _ _ _ _ _ _ (wf_pay _ _ _ _ _ _ _ _ _ _ _ _ _ _ _ _ F)) as Ham.
    pose proof (ts_range _ _ (inv_sane _ _ Hi) _ _ (wf_vault _ _ _ _ _ _ _ _ _ _ _ _ _ _ _ _ F)) as Hv.
    cbn [event_ok]. unfold c_ev_withdraw. ev_fields.
    + apply u64_ok. apply (fee_range _ _ _ _ _ (proj1 (eo_fees _ HE)) (wf_fee _ _ _ _ _ _ _ _ _ _ _ _ _ _ _ _ F)).
    + apply u64_ok. lia.
  - apply elem_of_list_singleton in He as ->. split; [done|]. cbn in Hok. unfold collect_accs_ok in Hok. ranges.
    pose proof (ty_lamports _ Hty (fa_treasury a)). pose proof (eo_rent _ HE TREASURY_SPACE). unfold COLLECT_BUFFER in *.
    cbn [event_ok]. unfold c_ev_fees. ev_fields. apply u64_ok. lia.
Qed.

Theorem C60_merkle_events : forall E sg ix w w' evs, env_ok E -> typed w -> merkle_exec E sg ix w = Ok (w', evs) ->
  forall e, e ∈ evs -> forall rest, dispatch merkle_events (event_data e ++ rest) = Some e.
Proof.
  intros E sg ix w w' evs HE Hty Hx e He rest.
  cut (by_lockup e = false /\ event_ok e = true); [intros [? ?]; by apply C60_merkle_decodes|].
  apply merkle_exec_effect in Hx as [Hok Heff].
  destruct Heff as [i t f p c b w'|a g m b c w' evs ? Hm ? ? ? ? ? ? ? ? ? ->|a index amount proof tr m c vt dt fee w' evs F
    |a amount m c vt dt w' evs F|a tr n w' ? Ht Hcol ? -> Hn Hmv].
  - by apply elem_of_nil in He.
  - apply elem_of_list_singleton in He as ->. split; [done|]. cbn [merkle_ix_ok] in Hok. ranges. cbn [event_ok]. unfold c_ev_campaign. ev_fields; try assumption.
    + apply (u_ok 4 4294967295); [done|lia].
    + apply u8_ok, (ty_decimals _ Hty _ _ Hm).
  - rewrite (lf_evs _ _ _ _ _ _ _ _ _ _ _ _ _ _ _ F) in He. apply elem_of_list_singleton in He as ->. split; [done|].
    cbn [merkle_ix_ok] in Hok. ranges. cbn [event_ok]. unfold c_ev_claim. ev_fields.
    + apply u64_ok. apply (fee_range _ _ _ _ _ (proj2 (eo_fees _ HE)) (lf_fee _ _ _ _ _ _ _ _ _ _ _ _ _ _ _ F)).
    + apply (u_ok 4 4294967295); [done|lia].
  - rewrite (bf_evs _ _ _ _ _ _ _ _ _ _ _ F) in He. apply elem_of_list_singleton in He as ->. split; [done|].
    cbn [merkle_ix_ok] in Hok. ranges. cbn [event_ok]. unfold c_ev_clawback. ev_fields.
  - apply elem_of_list_singleton in He as ->. split; [done|]. cbn in Hok. unfold collect_accs_ok in Hok. ranges.
    pose proof (ty_lamports _ Hty (fa_treasury a)). pose proof (eo_rent _ HE TREASURY_SPACE). unfold COLLECT_BUFFER in *.
    cbn [event_ok]. unfold c_ev_fees. ev_fields. apply u64_ok. lia.
Qed.

(** ** Return data of the views *)
Lemma status_codec_ok : codec_ok c_status.
Proof.
  split; cbn [c_status enc dec val_ok].
  - by intros [] rest _.
  - intros l x rest _ H. destruct l as [|b l]; [done|]. destruct b as [|[[[]|[]|]|[[]|[]|]|]|]; try done; by injection H as <- <-.
  - intros [] _; repeat constructor; cbn; lia.
Qed.
(** The view [r] returns [x]: its return data is accepted by the runtime, and a client reads [x] from it. *)
Definition returned {A} (c : codec A) (r : res A) (x : A) : Prop :=
  exists l, return_data c r = Ok l /\ dec c l = Some (x, []).
Lemma returned_ok {A} (c : codec A) r x : codec_ok c -> r = Ok x -> val_ok c x = true -> Z.of_nat (length (enc c x)) <= MAX_RETURN_DATA -> returned c r x.
Proof.
  intros Hc -> Hv Hl. exists (enc c x). unfold return_data. cbn [rbind]. rewrite (proj2 (Z.leb_le _ _) Hl). split; [done|].
  rewrite <- (app_nil_r (enc c x)). by apply (ck_read _ Hc).
Qed.
Lemma returned_u64 r x : r = Ok x -> 0 <= x <= U64_MAX -> returned c_u64 r x.
Proof. intros Hr Hx. apply returned_ok; [apply uint_ok|done|by apply u64_ok|]. cbn [c_u64 c_uint enc]. rewrite le_bytes_length. done. Qed.
Lemma returned_bool r x : r = Ok x -> returned c_bool r x.
Proof. intros Hr. by apply returned_ok; [apply bool_ok|..]. Qed.

Theorem C60_lockup_views : forall E w k nft, env_ok E -> reachable E w ->
  (forall x, streamed_amount_of E k nft w = Ok x -> returned c_u64 (streamed_amount_of E k nft w) x) /\
  (forall x, withdrawable_amount_of E k nft w = Ok x -> returned c_u64 (withdrawable_amount_of E k nft w) x) /\
  (forall x, refundable_amount_of E k nft w = Ok x -> returned c_u64 (refundable_amount_of E k nft w) x) /\
  (forall x, status_of_view E k nft w = Ok x -> returned c_status (status_of_view E k nft w) x) /\
  (forall sender salt x, stream_exists E nft sender salt w = Ok x -> returned c_bool (stream_exists E nft sender salt w) x) /\
  (forall x, lockup_treasury_view E k w = Ok x -> returned c_treasury (lockup_treasury_view E k w) x) /\
  (forall p f x, withdrawal_fee_in_lamports E k p f w = Ok x -> returned c_u64 (withdrawal_fee_in_lamports E k p f w) x).
Proof.
  intros E w k nft HE Hr. pose proof (reachable_inv _ _ HE Hr) as Hi.
  assert (forall s, stream_view E k nft w = Ok s -> 0 <= entitled s (get_current_time w) <= deposited (s_amounts s) /\ deposited (s_amounts s) <= U64_MAX /\ stream_ok s) as Hb.
  { intros s (Hs & _)%stream_view_inv. pose proof (inv_stream_ok _ _ _ _ Hi Hs) as Hok. split; [|split; [|done]].
    - pose proof (entitled_bounds s (get_current_time w) Hok). destruct Hok as [[]]; lia.
    - destruct Hok as [[]]; lia. }
  split_and!.
  - intros x Hx. apply returned_u64; [done|]. unfold streamed_amount_of in Hx. destruct (stream_view E k nft w) as [s|] eqn:Hs; [|done].
    destruct (Hb s eq_refl) as (? & ? & ?). cbn [rbind] in Hx. rewrite streamed_entitled in Hx by (done || apply now_range). injection Hx as <-. lia.
  - intros x Hx. apply returned_u64; [done|]. unfold withdrawable_amount_of in Hx. destruct (stream_view E k nft w) as [s|] eqn:Hs; [|done].
    destruct (Hb s eq_refl) as (? & ? & Hok). cbn [rbind] in Hx. unfold get_withdrawable_amount in Hx. rewrite streamed_entitled in Hx by (done || apply now_range).
    cbn [rbind] in Hx. unfold u64_sub in Hx. destruct (Z.leb_spec (withdrawn (s_amounts s)) (entitled s (get_current_time w))); [|done]. injection Hx as <-.
    assert (0 <= withdrawn (s_amounts s)) by (clear - Hok; destruct Hok as [[]]; lia). lia.
  - intros x Hx. apply returned_u64; [done|]. unfold refundable_amount_of in Hx. destruct (stream_view E k nft w) as [s|] eqn:Hs; [|done].
    destruct (Hb s eq_refl) as (? & ? & Hok). cbn [rbind] in Hx. unfold get_refundable_amount in Hx. destruct (_ && _); [|injection Hx as <-; done].
    rewrite streamed_entitled in Hx by (done || apply now_range). cbn [rbind] in Hx. unfold u64_sub in Hx. destruct (_ <=? _); [|done]. injection Hx as <-. lia.
  - intros x Hx. by apply returned_ok; [apply status_codec_ok|..].
  - intros. by apply returned_bool.
  - intros x Hx. pose proof Hx as Hx0. unfold lockup_treasury_view in Hx. destruct (load_lockup_treasury w k) as [t|] eqn:Ht; [|done]. cbn [rbind] in Hx.
    destruct (check_seeds_bump _ _ _ _ _); [|done]. cbn [rbind] in Hx. injection Hx as ->.
    apply load_lockup_treasury_ok in Ht. apply returned_ok; [apply treasury_codec_ok|done| |by rewrite treasury_length].
    apply (treasury_values _ _ _ _ _ HE (li_treasury _ _ (inv_lockup _ _ Hi) _ _ Ht)).
  - intros p f x Hx. apply returned_u64; [done|]. apply fee_view_inv in Hx as (tr & _ & _ & _ & _ & H). apply (fee_range _ _ _ _ _ (proj1 (eo_fees _ HE)) H).
Qed.

Theorem C60_merkle_views : forall E w k, env_ok E -> reachable E w ->
  (forall x, campaign_view k w = Ok x -> returned c_campaign (campaign_view k w) x) /\
  (forall receipt i x, has_claimed E k receipt i w = Ok x -> returned c_bool (has_claimed E k receipt i w) x) /\
  (forall x, has_expired_view k w = Ok x -> returned c_bool (has_expired_view k w) x) /\
  (forall x, has_campaign_started_view k w = Ok x -> returned c_bool (has_campaign_started_view k w) x) /\
  (forall x, has_grace_period_passed_view k w = Ok x -> returned c_bool (has_grace_period_passed_view k w) x) /\
  (forall x, merkle_treasury_view E k w = Ok x -> returned c_treasury (merkle_treasury_view E k w) x) /\
  (forall p f x, claim_fee_in_lamports E k p f w = Ok x -> returned c_u64 (claim_fee_in_lamports E k p f w) x).
Proof.
  intros E w k HE Hr. pose proof (reachable_inv _ _ HE Hr) as Hi. split_and!.
  - intros c Hc. pose proof Hc as Hc0. unfold campaign_view in Hc0. apply load_campaign_ok in Hc0.
    pose proof (mi_campaign _ _ (inv_merkle _ _ Hi) _ _ Hc0) as Hci.
    apply returned_ok; [apply campaign_codec_ok|done|apply (campaign_values _ _ _ _ HE Hci)|].
    pose proof (campaign_length c) as Hl. pose proof (co_size _ (ci_ok _ _ _ _ Hci)) as Hs.
    assert (0 <= campaign_size c) by (unfold campaign_size; lia). assert (CAMPAIGN_SPACE <= 1000) by (vm_compute; discriminate). unfold MAX_RETURN_DATA. clear - Hl Hs H H0. lia.
  - intros. by apply returned_bool.
  - intros. by apply returned_bool.
  - intros. by apply returned_bool.
  - intros. by apply returned_bool.
  - intros x Hx. pose proof Hx as Hx0. unfold merkle_treasury_view in Hx. destruct (load_merkle_treasury w k) as [t|] eqn:Ht; [|done]. cbn [rbind] in Hx.
    destruct (check_seeds_bump _ _ _ _ _); [|done]. cbn [rbind] in Hx. injection Hx as ->.
    apply load_merkle_treasury_ok in Ht. apply returned_ok; [apply treasury_codec_ok|done| |by rewrite treasury_length].
    apply (treasury_values _ _ _ _ _ HE (mi_treasury _ _ (inv_merkle _ _ Hi) _ _ Ht)).
  - intros p f x Hx. apply returned_u64; [done|]. apply claim_fee_view_inv in Hx as (tr & _ & _ & _ & H). apply (fee_range _ _ _ _ _ (proj2 (eo_fees _ HE)) H).
Qed.

(** ** Examples *)
Lemma typed_check w :
  all_dat (fun _ d => match d with DMint m => (0 <=? m_decimals m) && (m_decimals m <=? 255) | _ => true end) w = true ->
  forallb (fun '(_, n) => (0 <=? n) && (n <=? U64_MAX)) (map_to_list (wlam w)) = true -> typed w.
Proof.
  intros Hd Hl. split.
  - intros k m Hk. pose proof (all_dat_ok _ _ _ _ Hd Hk) as H. cbn in H. by apply andb_prop in H as [?%Z.leb_le ?%Z.leb_le].
  - intros k. unfold lam. destruct (wlam w !! k) as [n|] eqn:Hk; [|done]. cbn [default]. rewrite forallb_forall in Hl.
    specialize (Hl (k, n)). cbn in Hl. apply elem_of_map_to_list in Hk. apply elem_of_list_In in Hk. apply Hl in Hk.
    by apply andb_prop in Hk as [?%Z.leb_le ?%Z.leb_le].
Qed.
(** The withdrawal of script2 (150 to the recipient, without a fee) and the claim of script6, as logged. *)
Example C60_example :
  reachable E0 (T 1400 w1) /\ typed (T 1400 w1) /\ typed (T 1800 w5) /\
  match lockup_exec E0 [kRecipient] (LWithdraw (withdraw_to 1 kRecipient) 150) (T 1400 w1) with
  | Ok (_, [e]) => length (event_data e) = 120%nat /\ dispatch lockup_events (event_data e) = Some e
  | _ => False end /\
  match merkle_exec E0 [kOther] (MClaim (claim_by kOther 1500 0 0 kRecipient) 0 500 [leafB; leafC]) (T 1800 w5) with
  | Ok (_, [e]) => length (event_data e) = 156%nat /\ dispatch merkle_events (event_data e) = Some e
  | _ => False end.
Proof.
  split; [apply fwd_reachable, (T_fwd 1400 tr1); [apply w1_hist|vm_compute; reflexivity..]|].
  split; [apply typed_check; vm_compute; reflexivity|]. split; [apply typed_check; vm_compute; reflexivity|].
  split; vm_compute; split; reflexivity.
Qed.
(** Return data of a view with the status: one byte. *)
Example C60_view_example :
  return_data c_status (status_of_view E0 (kStream kSender 1) (kNft kSender 1) (T 1400 w1)) = Ok [1] /\
  return_data c_u64 (withdrawable_amount_of E0 (kStream kSender 1) (kNft kSender 1) (T 1400 w1)) = Ok [106; 1; 0; 0; 0; 0; 0; 0] /\
  is_ok (return_data c_campaign (campaign_view (kCampaign 1500 0) w6)) = true.
Proof. split; [vm_compute; reflexivity|]. split; vm_compute; reflexivity. Qed.

Print Assumptions C60_lockup_decodes.
Print Assumptions C60_merkle_decodes.
Print Assumptions C60_lockup_exact.
Print Assumptions C60_merkle_exact.
Print Assumptions C60_lockup_events.
Print Assumptions C60_merkle_events.
Print Assumptions C60_lockup_views.
Print Assumptions C60_merkle_views.
