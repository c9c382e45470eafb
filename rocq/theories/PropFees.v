(** C27, C28, C31 and the consequences of C30: the treasuries and the fees charged. *)
From Verif Require Export PropFeeMath PropLive.

(** ** C27: collecting fees *)

(** What stays in a treasury: the rent minimum of its account (105 bytes) and a million lamports. *)
Definition treasury_keep (E : env) : Z := rent_min E 105 + 1000000.

Record collected (E : env) (sg : list key) (a : collect_accs) (tr : treasury) (w w' : world) (n : Z) : Prop := {
  cl_collector : fa_collector a = tr_fee_collector tr /\ tr_fee_collector tr ∈ sg;
  cl_amount : n = lam w (fa_treasury a) - treasury_keep E /\ 0 < n;
  cl_left : fa_treasury a <> fa_recipient a ->
    lam w' (fa_treasury a) = treasury_keep E /\ lam w' (fa_recipient a) = lam w (fa_recipient a) + n;
  cl_self : fa_treasury a = fa_recipient a -> lam w' (fa_treasury a) = lam w (fa_treasury a);
  cl_other : forall k, k <> fa_treasury a -> k <> fa_recipient a -> lam w' k = lam w k;
  cl_data : wdat w' = wdat w /\ wclock w' = wclock w }.

Lemma lockup_treasury_view_inv E k w tr : lockup_treasury_view E k w = Ok tr <->
  wdat w !! k = Some (DLockupTreasury tr) /\ create_program_address E PLockup [s_TREASURY] (tr_bump tr) = Some k.
Proof.
  unfold lockup_treasury_view. split.
  - intros H. inv_all H. loads. injection H as <-. split; done.
  - intros [Hk Hc]. unfold load_lockup_treasury, load_merkle_treasury. rewrite Hk. cbn [rbind]. rewrite (check_seeds_bump_live _ _ _ _ _ Hc). done.
Qed.
Lemma merkle_treasury_view_inv E k w tr : merkle_treasury_view E k w = Ok tr <->
  wdat w !! k = Some (DMerkleTreasury tr) /\ create_program_address E PMerkle [s_TREASURY] (tr_bump tr) = Some k.
Proof.
  unfold merkle_treasury_view. split.
  - intros H. inv_all H. loads. injection H as <-. split; done.
  - intros [Hk Hc]. unfold load_lockup_treasury, load_merkle_treasury. rewrite Hk. cbn [rbind]. rewrite (check_seeds_bump_live _ _ _ _ _ Hc). done.
Qed.

Lemma move_collected E sg a tr w w' n : fa_collector a ∈ sg -> fa_collector a = tr_fee_collector tr ->
  n = lam w (fa_treasury a) - (rent_min E TREASURY_SPACE + COLLECT_BUFFER) -> 0 < n ->
  move_lamports (fa_treasury a) (fa_recipient a) n w = Ok w' -> collected E sg a tr w w' n.
Proof.
  intros Hs Hc Hn H0 Hm. apply move_lamports_ok in Hm as (Hd & Hk & _ & _ & Hne & Heq & Ho).
  unfold TREASURY_SPACE, COLLECT_BUFFER in Hn. change (8 + 97) with 105 in Hn.
  split; unfold treasury_keep; [split; congruence|lia| |done|done|done].
  intros H. destruct (Hne H). lia.
Qed.

Theorem C27_lockup_collect : forall E sg a w w' evs, lockup_exec E sg (LCollectFees a) w = Ok (w', evs) ->
  exists tr n, lockup_treasury_view E (fa_treasury a) w = Ok tr /\ collected E sg a tr w w' n /\
    evs = [EvLockupFees n (fa_collector a) (fa_recipient a)].
Proof.
  intros E sg a w w' evs H. apply lockup_exec_effect in H as [_ Heff].
  inversion Heff as [|? ? ? ? ? ? ? ? ? ? ? ? ? ? Hix| | |? ? ? ? ? ? ? ? ? ? ? ? ? ? Hix|? tr n ? Hs Ht Hc Ha Hn H0 Hm]; subst.
  - destruct Hix as [?|(q & ? & _)]; done.
  - destruct Hix as [?|[? _]]; done.
  - exists tr. eexists. split; [by apply lockup_treasury_view_inv|]. split; [by eapply move_collected|done].
Qed.
Theorem C27_merkle_collect : forall E sg a w w' evs, merkle_exec E sg (MCollectFees a) w = Ok (w', evs) ->
  exists tr n, merkle_treasury_view E (fa_treasury a) w = Ok tr /\ collected E sg a tr w w' n /\
    evs = [EvMerkleFees n (fa_collector a) (fa_recipient a)].
Proof.
  intros E sg a w w' evs H. apply merkle_exec_effect in H as [_ Heff].
  inversion Heff as [| | | |? tr n ? Hs Ht Hc Ha Hn H0 Hm]; subst.
  exists tr. eexists. split; [by apply merkle_treasury_view_inv|]. split; [by eapply move_collected|done].
Qed.

(** It succeeds exactly when there is an excess, and otherwise fails with the documented error. *)
Theorem C27_lockup_collect_iff : forall E sg a tr w, env_ok E -> treasury_keep E <= U64_MAX -> collect_accs_ok a = true ->
  lockup_treasury_view E (fa_treasury a) w = Ok tr -> fa_collector a = tr_fee_collector tr -> fa_collector a ∈ sg ->
  (treasury_keep E < lam w (fa_treasury a) -> exists r, lockup_exec E sg (LCollectFees a) w = Ok r) /\
  (lam w (fa_treasury a) <= treasury_keep E -> lockup_exec E sg (LCollectFees a) w = Err (ELockup CantCollectZeroFees)).
Proof.
  intros E sg a tr w HE Hr Hok Hv Hc Hs. pose proof (eo_rent _ HE 105) as Hrm. apply lockup_treasury_view_inv in Hv as [Ht Ha].
  unfold lockup_exec, lockup_ix_ok. rewrite Hok. cbn [ensure rbind]. unfold lockup_collect_fees.
  rewrite (check_signer_live _ _ Hs). cbn [rbind]. unfold load_lockup_treasury. rewrite Ht. cbn [rbind].
  rewrite (check_address_live _ _ Hc). cbn [rbind]. rewrite (check_seeds_bump_live _ _ _ _ _ Ha). cbn [rbind].
  unfold safe_collectible_amount, TREASURY_SPACE, COLLECT_BUFFER. change (8 + 97) with 105. unfold treasury_keep in *. rewrite u64_add_le by done. cbn [rbind].
  unfold check_collect_fees. split; intros H.
  - rewrite Z.max_r by lia. rewrite (proj2 (Z.eqb_neq _ _)) by lia. cbn [rbind]. unfold move_lamports.
    rewrite u64_sub_le by lia. cbn [rbind]. by eexists.
  - rewrite Z.max_l by lia. done.
Qed.
Theorem C27_merkle_collect_iff : forall E sg a tr w, env_ok E -> treasury_keep E <= U64_MAX -> collect_accs_ok a = true ->
  merkle_treasury_view E (fa_treasury a) w = Ok tr -> fa_collector a = tr_fee_collector tr -> fa_collector a ∈ sg ->
  (treasury_keep E < lam w (fa_treasury a) -> exists r, merkle_exec E sg (MCollectFees a) w = Ok r) /\
  (lam w (fa_treasury a) <= treasury_keep E -> merkle_exec E sg (MCollectFees a) w = Err (EMerkle MCantCollectZeroFees)).
Proof.
  intros E sg a tr w HE Hr Hok Hv Hc Hs. pose proof (eo_rent _ HE 105) as Hrm. apply merkle_treasury_view_inv in Hv as [Ht Ha].
  unfold merkle_exec, merkle_ix_ok. rewrite Hok. cbn [ensure rbind]. unfold merkle_collect_fees.
  rewrite (check_signer_live _ _ Hs). cbn [rbind]. unfold load_merkle_treasury. rewrite Ht. cbn [rbind].
  rewrite (check_address_live _ _ Hc). cbn [rbind]. rewrite (check_seeds_bump_live _ _ _ _ _ Ha). cbn [rbind].
  unfold safe_collectible_amount, TREASURY_SPACE, COLLECT_BUFFER. change (8 + 97) with 105. unfold treasury_keep in *. rewrite u64_add_le by done. cbn [rbind].
  unfold m_check_collect_fees. split; intros H.
  - rewrite Z.max_r by lia. rewrite (proj2 (Z.eqb_neq _ _)) by lia. cbn [rbind]. unfold move_lamports.
    rewrite u64_sub_le by lia. cbn [rbind]. by eexists.
  - rewrite Z.max_l by lia. done.
Qed.

(** Whatever anybody does, a treasury's lamports only decrease when the recorded collector signs a collection. *)
Lemma fees_only w w' (a : collect_accs) k n : move_lamports (fa_treasury a) (fa_recipient a) n w = Ok w' -> 0 < n ->
  lam w' k < lam w k -> k = fa_treasury a.
Proof.
  intros Hm Hn Hl. apply move_lamports_ok in Hm as (_ & _ & _ & _ & Hne & Heq & Ho).
  destruct (decide (k = fa_treasury a)) as [|Hk]; [done|]. exfalso. destruct (decide (k = fa_recipient a)) as [->|Hk2].
  - destruct (Hne (not_eq_sym Hk)). lia.
  - rewrite (Ho _ Hk Hk2) in Hl. lia.
Qed.
Theorem C27_lockup_only_collector : forall E C w act evs w' k tr, env_ok E -> step E C w act evs w' ->
  wdat w !! k = Some (DLockupTreasury tr) -> lam w' k < lam w k ->
  exists sg a, act = ALockup sg (LCollectFees a) /\ fa_treasury a = k /\ tr_fee_collector tr ∈ sg.
Proof.
  intros E C w act evs w' k tr HE Hst Hk Hl.
  assert (Hd : wdat w !! k <> None) by congruence.
  destruct Hst as [sg ix evs w' Hsg Hx|sg ix evs w' Hsg Hx|w' Ho HC].
  - apply lockup_exec_effect in Hx as [_ Heff].
    destruct Heff as [a f p c tb nb ? F|? a p ct nc cm dm sb s1 nm c0 c1 ? ? Hix Hargs F|a s1 st ? ? Hsi Hse Hs ? ? ? ? -> ->|a m s1 vt dt st ? ? F
      |? a am tr0 m nt s1 s' vt dt fee wd ? ? Hix Ham F|a tr0 n ? Hc Htr Hcc Hca Hn Hnpos Hmv].
    + pose proof (ds_mono _ _ _ (if_step _ _ _ _ _ _ _ _ _ _ F) k Hd). lia.
    + pose proof (ds_mono _ _ _ (rf_step _ _ _ _ _ _ _ _ _ _ _ _ _ _ _ _ F) k Hd). lia.
    + rewrite lam_set_dat in Hl. lia.
    + pose proof (ds_mono _ _ _ (pf_step _ _ _ _ _ _ _ _ _ _ _ _ _ _ _ (cf_pay _ _ _ _ _ _ _ _ _ _ _ F)) k Hd). lia.
    + pose proof (ds_mono _ _ _ (pf_step _ _ _ _ _ _ _ _ _ _ _ _ _ _ _ (wf_pay _ _ _ _ _ _ _ _ _ _ _ _ _ _ _ _ F)) k Hd). lia.
    + pose proof (fees_only _ _ a k n Hmv Hnpos Hl) as ->. exists sg, a. rewrite Htr in Hk. injection Hk as ->. split_and!; congruence.
  - destruct (merkle_frame _ _ _ _ _ _ HE Hsg Hx) as (S & F & _). pose proof (fr_lam _ _ _ _ _ F k _ Hk ltac:(done)). lia.
  - destruct (u_data _ _ _ _ (os_lockup _ _ _ Ho) _ _ Hk eq_refl) as [_ ?]. lia.
Qed.
Theorem C27_merkle_only_collector : forall E C w act evs w' k tr, env_ok E -> step E C w act evs w' ->
  wdat w !! k = Some (DMerkleTreasury tr) -> lam w' k < lam w k ->
  exists sg a, act = AMerkle sg (MCollectFees a) /\ fa_treasury a = k /\ tr_fee_collector tr ∈ sg.
Proof.
  intros E C w act evs w' k tr HE Hst Hk Hl.
  assert (Hd : wdat w !! k <> None) by congruence.
  destruct Hst as [sg ix evs w' Hsg Hx|sg ix evs w' Hsg Hx|w' Ho HC].
  - destruct (lockup_frame _ _ _ _ _ _ HE Hsg Hx) as (S & F & _). pose proof (fr_lam _ _ _ _ _ F k _ Hk ltac:(done)). lia.
  - apply merkle_exec_effect in Hx as [_ Heff].
    destruct Heff as [i t1 f p c1 b ? Hi Ht Hn Hne Hds Hr|a g m b c1 ? ? Hi Hm Hmp Hf Hn3 Hn4 Hne Hvv Hc Hsz Hds ->|a i am pf tr0 m c1 vt dt fee ? ? F
        |a am m c1 vt dt ? ? F|a tr0 n ? Hc Htr Hcc Hca Hn Hnpos Hmv].
    + pose proof (ds_mono _ _ _ Hds k Hd). lia.
    + pose proof (ds_mono _ _ _ Hds k Hd). lia.
    + pose proof (ds_mono _ _ _ (pf_step _ _ _ _ _ _ _ _ _ _ _ _ _ _ _ (lf_pay _ _ _ _ _ _ _ _ _ _ _ _ _ _ _ F)) k Hd). lia.
    + pose proof (ds_mono _ _ _ (pf_step _ _ _ _ _ _ _ _ _ _ _ _ _ _ _ (bf_pay _ _ _ _ _ _ _ _ _ _ _ F)) k Hd). lia.
    + pose proof (fees_only _ _ a k n Hmv Hnpos Hl) as ->. exists sg, a. rewrite Htr in Hk. injection Hk as ->. split_and!; congruence.
  - destruct (u_data _ _ _ _ (os_merkle _ _ _ Ho) _ _ Hk eq_refl) as [_ ?]. lia.
Qed.

(** ** C28: initialized at most once, settings immutable, always rent-exempt *)

Definition is_lockup_initialize (x : action * list event) : bool :=
  match x.1 with ALockup _ (LInitialize _ _ _ _) => true | _ => false end.
Definition is_merkle_initialize (x : action * list event) : bool :=
  match x.1 with AMerkle _ (MInitialize _ _ _ _ _) => true | _ => false end.
Definition count (f : action * list event -> bool) (tr : trace) : nat := length (List.filter f tr).

Lemma lockup_treasury_kept E sg ix w w' evs k t : lockup_effect E sg w ix w' evs -> wdat w !! k = Some (DLockupTreasury t) ->
  wdat w' !! k = Some (DLockupTreasury t).
Proof.
  intros Heff Hk.
  destruct Heff as [a f p c tb nb ? F|? a p ct nc cm dm sb s1 nm c0 c1 ? ? Hix Hargs F|a s1 st ? ? Hsi Hse Hs ? ? ? ? -> ->|a m s1 vt dt st ? ? F
      |? a am tr m nt s1 s' vt dt fee wd ? ? Hix Ham F|a tr n ? Hc Htr ? ? -> ? Hmv].
  - destruct F. rewrite !Forall_cons in if_fresh. destruct if_fresh as (? & ? & ? & ? & ? & ? & _).
    rewrite (ds_dat _ _ _ if_step). rewrite !lookup_insert_ne; [done|congruence..].
  - pose proof (create_effects _ _ _ _ _ _ _ _ _ _ _ _ _ _ _ _ F) as Hc.
    pose proof (rf_coll_md_kind _ _ _ _ _ _ _ _ _ _ _ _ _ _ _ _ F) as (? & ? & ? & ? & ? & ? & Hc0 & _).
    pose proof (rf_coll_md _ _ _ _ _ _ _ _ _ _ _ _ _ _ _ _ F).
    pose proof (rf_nc _ _ _ _ _ _ _ _ _ _ _ _ _ _ _ _ F).
    pose proof (rf_creator_ata _ _ _ _ _ _ _ _ _ _ _ _ _ _ _ _ F).
    pose proof (rf_fresh_nft _ _ _ _ _ _ _ _ _ _ _ _ _ _ _ _ F). pose proof (rf_fresh_nft_ata _ _ _ _ _ _ _ _ _ _ _ _ _ _ _ _ F).
    pose proof (rf_fresh_stream _ _ _ _ _ _ _ _ _ _ _ _ _ _ _ _ F). pose proof (rf_fresh_vault _ _ _ _ _ _ _ _ _ _ _ _ _ _ _ _ F).
    pose proof (rf_fresh_metadata _ _ _ _ _ _ _ _ _ _ _ _ _ _ _ _ F). pose proof (rf_fresh_edition _ _ _ _ _ _ _ _ _ _ _ _ _ _ _ _ F).
    destruct Hc. rewrite ce_other; [done|]. rewrite !not_elem_of_cons. split_and!; try congruence. apply not_elem_of_nil.
  - rewrite wdat_set_dat. rewrite lookup_insert_ne; [done|congruence].
  - pose proof (cf_stream _ _ _ _ _ _ _ _ _ _ _ F).
    eapply payout_non_own; [apply (cf_pay _ _ _ _ _ _ _ _ _ _ _ F)|apply (cf_vault _ _ _ _ _ _ _ _ _ _ _ F)|done|done|congruence|done].
  - pose proof (wf_stream _ _ _ _ _ _ _ _ _ _ _ _ _ _ _ _ F).
    eapply payout_non_own; [apply (wf_pay _ _ _ _ _ _ _ _ _ _ _ _ _ _ _ _ F)|apply (wf_vault _ _ _ _ _ _ _ _ _ _ _ _ _ _ _ _ F)|done|done|congruence|done].
  - apply move_lamports_ok in Hmv as (-> & _). done.
Qed.
Lemma merkle_treasury_kept E sg ix w w' evs k t : merkle_effect E sg w ix w' evs -> wdat w !! k = Some (DMerkleTreasury t) ->
  wdat w' !! k = Some (DMerkleTreasury t).
Proof.
  intros Heff Hk.
  destruct Heff as [i t1 f p c1 b ? Hi Ht Hn Hne Hd Hr|a g m b c1 ? ? Hi Hm Hmp Hf Hn1 Hn2 Hne Hv Hc Hsz Hd ->|a i am pf tr m c1 vt dt fee ? ? F
    |a am m c1 vt dt ? ? F|a tr n ? Hc Htr Hcc Hca -> Hnpos Hmv].
  - rewrite (ds_dat _ _ _ Hd), lookup_insert_ne; [done|congruence].
  - rewrite (ds_dat _ _ _ Hd), !lookup_insert_ne; [done|congruence..].
  - pose proof (lf_campaign _ _ _ _ _ _ _ _ _ _ _ _ _ _ _ F).
    eapply payout_non_own; [apply (lf_pay _ _ _ _ _ _ _ _ _ _ _ _ _ _ _ F)|apply (lf_vault _ _ _ _ _ _ _ _ _ _ _ _ _ _ _ F)| |done|congruence|done].
    intros x Hx. apply claim_D; [apply (lf_receipt _ _ _ _ _ _ _ _ _ _ _ _ _ _ _ F)|done].
  - pose proof (bf_campaign _ _ _ _ _ _ _ _ _ _ _ F).
    eapply payout_non_own; [apply (bf_pay _ _ _ _ _ _ _ _ _ _ _ F)|apply (bf_vault _ _ _ _ _ _ _ _ _ _ _ F)|done|done|congruence|done].
  - apply move_lamports_ok in Hmv as (-> & _). done.
Qed.

Lemma step_lockup_treasury E C w a evs w' k t : env_ok E -> token_sane E w -> step E C w a evs w' ->
  wdat w !! k = Some (DLockupTreasury t) -> wdat w' !! k = Some (DLockupTreasury t).
Proof.
  intros HE Hts Hs Hk. pose proof (step_keeps _ _ _ _ _ _ HE Hts Hs) as [HL _ _ _].
  destruct Hs as [sg ix evs w' Hsg Hx|sg ix evs w' Hsg Hx|w' Ho Hc].
  - apply lockup_exec_effect in Hx as [_ Heff]. by eapply lockup_treasury_kept.
  - apply (u_data _ _ _ _ (HL eq_refl) _ _ Hk). done.
  - apply (u_data _ _ _ _ (HL eq_refl) _ _ Hk). done.
Qed.
Lemma step_merkle_treasury E C w a evs w' k t : env_ok E -> token_sane E w -> step E C w a evs w' ->
  wdat w !! k = Some (DMerkleTreasury t) -> wdat w' !! k = Some (DMerkleTreasury t).
Proof.
  intros HE Hts Hs Hk. pose proof (step_keeps _ _ _ _ _ _ HE Hts Hs) as [_ HM _ _].
  destruct Hs as [sg ix evs w' Hsg Hx|sg ix evs w' Hsg Hx|w' Ho Hc].
  - apply (u_data _ _ _ _ (HM eq_refl) _ _ Hk). done.
  - apply merkle_exec_effect in Hx as [_ Heff]. by eapply merkle_treasury_kept.
  - apply (u_data _ _ _ _ (HM eq_refl) _ _ Hk). done.
Qed.

(** A successful initialize records the arguments as the settings. *)
Theorem C28_lockup_initialize : forall E sg a f p c w w' evs, env_ok E -> lockup_exec E sg (LInitialize a f p c) w = Ok (w', evs) ->
  exists tr, lockup_treasury_view E (ia_treasury a) w' = Ok tr /\
    tr_fee_collector tr = f /\ tr_chainlink_program tr = p /\ tr_chainlink_feed tr = c.
Proof.
  intros E sg a f p c w w' evs HE Hx. apply lockup_exec_effect in Hx as [_ Heff].
  inversion Heff as [? ? ? ? tb nb ? F|? ? ? ? ? ? ? ? ? ? ? ? ? ? Hix| | |? ? ? ? ? ? ? ? ? ? ? ? ? ? Hix|]; subst.
  - destruct F. exists (Treasury tb f p c). split; [|done]. apply lockup_treasury_view_inv. split; [|exact (proj1 (fpa_cpa _ _ _ _ _ if_treasury_addr))].
    rewrite (ds_dat _ _ _ if_step). apply NoDup_cons in if_distinct as [Hn _]. rewrite !not_elem_of_cons in Hn.
    destruct Hn as (? & ? & ? & ? & ? & _). rewrite !lookup_insert_ne by done. apply lookup_insert.
  - destruct Hix as [?|(q & ? & _)]; done.
  - destruct Hix as [?|[? _]]; done.
Qed.
Theorem C28_merkle_initialize : forall E sg i t f p c w w' evs, env_ok E -> merkle_exec E sg (MInitialize i t f p c) w = Ok (w', evs) ->
  exists tr, merkle_treasury_view E t w' = Ok tr /\
    tr_fee_collector tr = f /\ tr_chainlink_program tr = p /\ tr_chainlink_feed tr = c.
Proof.
  intros E sg i t f p c w w' evs HE Hx. apply merkle_exec_effect in Hx as [_ Heff].
  inversion Heff as [? ? ? ? ? b ? Hi Ht Hn Hne Hd Hr| | | |]; subst.
  exists (Treasury b f p c). split; [|done]. apply merkle_treasury_view_inv. split; [|exact (proj1 (fpa_cpa _ _ _ _ _ Ht))].
  rewrite (ds_dat _ _ _ Hd). apply lookup_insert.
Qed.

(** In every history, whatever the signers, at most one initialize of each program succeeds. *)
Lemma count_snoc f tr x : count f (tr ++ [x]) = (count f tr + if f x then 1 else 0)%nat.
Proof. unfold count. rewrite List.filter_app, app_length. simpl. by destruct (f x). Qed.

Theorem C28_lockup_once : forall E C tr w, env_ok E -> history E C tr w -> (count is_lockup_initialize tr <= 1)%nat.
Proof.
  intros E C tr w HE (w0 & Hg & Hr). pose proof (genesis_inv _ _ Hg) as Hi0.
  cut ((count is_lockup_initialize tr <= 1)%nat /\ ((0 < count is_lockup_initialize tr)%nat -> exists k t, wdat w !! k = Some (DLockupTreasury t))); [by intros []|].
  induction Hr as [|tr w a evs w' Hr IH Hs]; [split; cbn; lia|].
  destruct IH as [IH1 IH2]. pose proof (run_inv _ _ _ _ _ HE Hi0 Hr) as Hi. rewrite count_snoc.
  destruct (is_lockup_initialize (a, evs)) eqn:Ha.
  - destruct a as [sg [ac f p c| | | | | | |]| |]; try done. clear Ha.
    assert (exists k t, wdat w' !! k = Some (DLockupTreasury t)) as Hex.
    { inversion Hs as [? ? ? ? _ Hx| |]; subst. destruct (C28_lockup_initialize _ _ _ _ _ _ _ _ _ HE Hx) as (t & Ht & _).
      apply lockup_treasury_view_inv in Ht as [Ht _]. by eexists _, _. }
    split; [|done]. destruct (decide (count is_lockup_initialize tr = 0)%nat) as [->|Hc]; [lia|]. exfalso.
    destruct IH2 as (k & t & Hk); [lia|]. pose proof (ti_addr _ _ _ _ _ (li_treasury _ _ (inv_lockup _ _ Hi) _ _ Hk)) as Hka.
    inversion Hs as [? ? ? ? _ Hx| |]; subst. apply lockup_exec_effect in Hx as [_ Heff].
    inversion Heff as [? ? ? ? tb nb ? F|? ? ? ? ? ? ? ? ? ? ? ? ? ? Hix| | |? ? ? ? ? ? ? ? ? ? ? ? ? ? Hix|]; subst.
    + destruct F. rewrite if_treasury_addr in Hka. injection Hka as <- _.
      rewrite Forall_cons in if_fresh. destruct if_fresh as [Hn _]. congruence.
    + destruct Hix as [?|(q & ? & _)]; done.
    + destruct Hix as [?|[? _]]; done.
  - rewrite Nat.add_0_r. split; [done|]. intros H. destruct (IH2 H) as (k & t & Hk). exists k, t.
    exact (step_lockup_treasury _ _ _ _ _ _ _ _ HE (inv_sane _ _ Hi) Hs Hk).
Qed.
Theorem C28_merkle_once : forall E C tr w, env_ok E -> history E C tr w -> (count is_merkle_initialize tr <= 1)%nat.
Proof.
  intros E C tr w HE (w0 & Hg & Hr). pose proof (genesis_inv _ _ Hg) as Hi0.
  cut ((count is_merkle_initialize tr <= 1)%nat /\ ((0 < count is_merkle_initialize tr)%nat -> exists k t, wdat w !! k = Some (DMerkleTreasury t))); [by intros []|].
  induction Hr as [|tr w a evs w' Hr IH Hs]; [split; cbn; lia|].
  destruct IH as [IH1 IH2]. pose proof (run_inv _ _ _ _ _ HE Hi0 Hr) as Hi. rewrite count_snoc.
  destruct (is_merkle_initialize (a, evs)) eqn:Ha.
  - destruct a as [|sg [i t f p c| | | |]|]; try done. clear Ha.
    assert (exists k t, wdat w' !! k = Some (DMerkleTreasury t)) as Hex.
    { inversion Hs as [|? ? ? ? _ Hx|]; subst. destruct (C28_merkle_initialize _ _ _ _ _ _ _ _ _ _ HE Hx) as (t' & Ht & _).
      apply merkle_treasury_view_inv in Ht as [Ht _]. by eexists _, _. }
    split; [|done]. destruct (decide (count is_merkle_initialize tr = 0)%nat) as [->|Hc]; [lia|]. exfalso.
    destruct IH2 as (k & t' & Hk); [lia|]. pose proof (ti_addr _ _ _ _ _ (mi_treasury _ _ (inv_merkle _ _ Hi) _ _ Hk)) as Hka.
    inversion Hs as [|? ? ? ? _ Hx|]; subst. apply merkle_exec_effect in Hx as [_ Heff].
    inversion Heff as [? ? ? ? ? b ? Hii Ht Hn Hne Hd Hrr| | | |]; subst. rewrite Ht in Hka. injection Hka as <- _. congruence.
  - rewrite Nat.add_0_r. split; [done|]. intros H. destruct (IH2 H) as (k & t & Hk). exists k, t.
    exact (step_merkle_treasury _ _ _ _ _ _ _ _ HE (inv_sane _ _ Hi) Hs Hk).
Qed.

(** Settings are what they were, and the treasury holds at least its rent minimum, in every later world. *)
Theorem C28_lockup_settings : forall E k w w' tr, env_ok E -> reachable E w -> later E w w' ->
  lockup_treasury_view E k w = Ok tr -> lockup_treasury_view E k w' = Ok tr /\ rent_min E 105 <= lam w' k.
Proof.
  intros E k w w' tr HE Hre [tr' Hr] Hv. pose proof (reachable_inv _ _ HE Hre) as Hi0. apply lockup_treasury_view_inv in Hv as [Hk Ha].
  assert (wdat w' !! k = Some (DLockupTreasury tr)) as Hk'.
  { induction Hr as [|tr' w1 a evs w2 Hr IH Hs]; [done|].
    exact (step_lockup_treasury _ _ _ _ _ _ _ _ HE (inv_sane _ _ (run_inv _ _ _ _ _ HE Hi0 Hr)) Hs IH). }
  split; [by apply lockup_treasury_view_inv|].
  exact (ti_rent _ _ _ _ _ (li_treasury _ _ (inv_lockup _ _ (run_inv _ _ _ _ _ HE Hi0 Hr)) _ _ Hk')).
Qed.
Theorem C28_merkle_settings : forall E k w w' tr, env_ok E -> reachable E w -> later E w w' ->
  merkle_treasury_view E k w = Ok tr -> merkle_treasury_view E k w' = Ok tr /\ rent_min E 105 <= lam w' k.
Proof.
  intros E k w w' tr HE Hre [tr' Hr] Hv. pose proof (reachable_inv _ _ HE Hre) as Hi0. apply merkle_treasury_view_inv in Hv as [Hk Ha].
  assert (wdat w' !! k = Some (DMerkleTreasury tr)) as Hk'.
  { induction Hr as [|tr' w1 a evs w2 Hr IH Hs]; [done|].
    exact (step_merkle_treasury _ _ _ _ _ _ _ _ HE (inv_sane _ _ (run_inv _ _ _ _ _ HE Hi0 Hr)) Hs IH). }
  split; [by apply merkle_treasury_view_inv|].
  exact (ti_rent _ _ _ _ _ (mi_treasury _ _ (inv_merkle _ _ (run_inv _ _ _ _ _ HE Hi0 Hr)) _ _ Hk')).
Qed.

(** ** C31: the fee charged is the fee quoted *)

(** What payments (from, to, amount) add to the lamports of [k]. *)
Definition net (ps : list (key * key * Z)) (k : key) : Z :=
  fold_right (fun '(from, to, n) acc => (if k =? to then n else 0) - (if k =? from then n else 0) + acc) 0 ps.
(** What creating an account of [space] bytes at [k] costs: nothing if it exists, otherwise the rent minimum,
    less what [k] already holds (at least one lamport is kept if something was there). *)
Definition rent_due (E : env) (w : world) (k : key) (space : Z) : Z :=
  match wdat w !! k with
  | Some _ => 0
  | None => if lam w k =? 0 then rent_min E space else Z.max 0 (Z.max (rent_min E space) 1 - lam w k)
  end.

Lemma net_app p q k : net (p ++ q) k = net p k + net q k.
Proof. induction p as [|[[f t] n] p IH]; [done|]. simpl in *. lia. Qed.
Lemma system_transfer_net from to n w w' k : 0 <= n -> system_transfer from to n w = Ok w' ->
  lam w' k = lam w k + net [(from, to, n)] k.
Proof.
  intros Hn H. apply system_transfer_ok in H as (_ & _ & _ & Hne & Heq & Ho); [|done]. simpl.
  destruct (Z.eqb_spec k to) as [Ht|Ht], (Z.eqb_spec k from) as [Hf|Hf]; [subst from to|subst to|subst from|].
  - rewrite Heq by done. lia.
  - destruct (Hne (not_eq_sym Hf)). lia.
  - destruct (Hne Ht). lia.
  - rewrite (Ho _ Hf Ht). lia.
Qed.
Lemma charge_fee_net fee prog feed signer treas w w' f k : 0 <= f -> charge_fee fee prog feed signer treas w = Ok (w', f) ->
  lam w' k = lam w k + net [(signer, treas, f)] k.
Proof.
  intros Hf H. apply charge_fee_ok in H as (_ & _ & [[? ->]|[? H]]).
  - assert (f = 0) as -> by lia. simpl. destruct (k =? treas), (k =? signer); lia.
  - by apply system_transfer_net.
Qed.
Lemma init_account_net E payer k0 space d w w' k : 0 <= rent_min E space -> init_account E payer k0 space d w = Ok w' ->
  lam w' k = lam w k + net [(payer, k0, rent_due E w k0 space)] k.
Proof.
  intros Hr. unfold init_account, rent_due. destruct (wdat w !! k0) eqn:Hk; [discriminate|]. intros H. inv_all H. injection H as <-.
  rewrite lam_set_dat. set (need := if lam w k0 =? 0 then _ else _) in *.
  assert (0 <= need) by (unfold need; destruct (lam w k0 =? 0); lia).
  destruct (Z.ltb_spec 0 need).
  - by apply system_transfer_net.
  - injection He0 as <-. assert (need = 0) as -> by lia. simpl. destruct (k =? k0), (k =? payer); lia.
Qed.
Lemma init_ata_net E payer dest owner mintk tp w w' k : (forall n, 0 <= rent_min E n) ->
  init_ata_if_needed E payer dest owner mintk tp w = Ok w' ->
  lam w' k = lam w k + net [(payer, dest, rent_due E w dest (ata_space E mintk tp))] k.
Proof.
  intros Hr H. destruct (wdat w !! dest) as [d|] eqn:Hd.
  - pose proof (init_ata_if_needed_ok _ _ _ _ _ _ _ _ H) as (_ & t & _ & _ & _ & [(? & _)|(_ & ->)] & _); [congruence|].
    unfold rent_due. rewrite Hd. simpl. destruct (k =? dest), (k =? payer); lia.
  - unfold init_ata_if_needed in H. rewrite Hd in H. unfold create_ata in H. inv_all H. by eapply init_account_net.
Qed.
Lemma transfer_checked_lam E tp from to auth signed mintk amount dec w w' k :
  transfer_checked E tp from to auth signed mintk amount dec w = Ok w' -> lam w' k = lam w k.
Proof.
  intros H. apply transfer_checked_ok in H as (tf & td & m & _ & _ & _ & _ & _ & _ & _ & _ & _ & _ & _ & _ & _ & _ & [[_ ->]|(_ & _ & ->)]); [done|].
  by rewrite !lam_set_dat.
Qed.

Lemma withdraw_lam E sg a amount w w' evs : env_ok E -> withdraw E sg a amount w = Ok (w', evs) ->
  exists fee, withdrawal_fee_in_lamports E (wa_treasury a) (wa_chainlink a) (wa_feed a) w = Ok fee /\ 0 <= fee /\
    evs = [EvWithdraw (wa_mint a) fee (wa_stream a) (wa_nft_mint a) amount] /\
    forall k, lam w' k = lam w k + net [(wa_signer a, wa_treasury a, fee);
      (wa_signer a, wa_dest a, rent_due E w (wa_dest a) (ata_space E (wa_mint a) (wa_tp a)))] k.
Proof.
  intros HE H. pose proof H as H0. apply withdraw_inv in H0 as (tr & m0 & nt & s0 & s' & vt & dt & fee & wd & F).
  unfold withdraw in H. inv_all H. destruct x as [[w1 s] m].
  apply withdraw_accounts_inv in He as (tr1 & nt1 & vt1 & _ & _ & _ & _ & _ & _ & _ & _ & _ & _ & _ & _ & _ & _ & _ & _ & _ & _ & _ & Hi).
  unfold withdraw_handler in H. inv_all H. destruct x2 as [w2 fee']. inv_all H. injection H as <- Hev.
  destruct F. rewrite wf_evs in Hev. injection Hev as ->.
  assert (0 <= fee) as Hf0 by (eapply fee_nonneg; [apply (proj1 (eo_fees _ HE))|exact wf_fee]).
  exists fee. split_and!; [|done|done|].
  - unfold withdrawal_fee_in_lamports, load_lockup_treasury. rewrite wf_treasury. cbn [rbind].
    rewrite (check_seeds_bump_live _ _ _ _ _ wf_treasury_addr). cbn [rbind]. destruct wf_oracle as [Ho1 Ho2].
    rewrite (check_address_live _ _ Ho1). cbn [rbind]. rewrite (check_address_live _ _ Ho2). cbn [rbind]. exact wf_fee.
  - intros k. match goal with Ht : transfer_checked _ _ _ _ _ _ _ _ _ _ = Ok _ |- _ => rewrite (transfer_checked_lam _ _ _ _ _ _ _ _ _ _ _ k Ht) end.
    match goal with Hc : charge_fee _ _ _ _ _ _ = Ok _ |- _ => rewrite (charge_fee_net _ _ _ _ _ _ _ _ k Hf0 Hc) end.
    rewrite lam_set_dat, (init_ata_net _ _ _ _ _ _ _ _ k (eo_rent _ HE) Hi). simpl. lia.
Qed.

Theorem C31_withdraw : forall E sg ix a w w' evs, env_ok E -> is_withdraw ix a -> lockup_exec E sg ix w = Ok (w', evs) ->
  exists tr fee amount, lockup_treasury_view E (wa_treasury a) w = Ok tr /\
    wa_chainlink a = tr_chainlink_program tr /\ wa_feed a = tr_chainlink_feed tr /\
    withdrawal_fee_in_lamports E (wa_treasury a) (wa_chainlink a) (wa_feed a) w = Ok fee /\
    evs = [EvWithdraw (wa_mint a) fee (wa_stream a) (wa_nft_mint a) amount] /\
    (forall k, lam w' k = lam w k + net [(wa_signer a, wa_treasury a, fee);
      (wa_signer a, wa_dest a, rent_due E w (wa_dest a) (ata_space E (wa_mint a) (wa_tp a)))] k) /\
    0 <= fee /\ (deployed_fees E -> fee = 0).
Proof.
  intros E sg ix a w w' evs HE Hix Hx.
  assert (exists amount, withdraw E sg a amount w = Ok (w', evs)) as [amount Hw].
  { unfold lockup_exec in Hx. inv_all Hx. destruct Hix as [->|[amount ->]].
    - apply withdraw_max_eq in Hx as (wd & _ & Hx). by exists wd.
    - by exists amount. }
  destruct (withdraw_lam _ _ _ _ _ _ _ HE Hw) as (fee & Hv & Hf0 & Hev & Hl).
  destruct (fee_view_inv _ _ _ _ _ _ Hv) as (tr & Htr & Hta & Hp & Hf & Hc).
  exists tr, fee, amount. split; [by apply lockup_treasury_view_inv|]. split_and!; try done.
  intros [Hd _]. unfold convert_usd_fee_to_lamports, convert_fee in Hc. rewrite Hd in Hc. by injection Hc as <-.
Qed.

Lemma claim_fee_view_inv E t p f w fee : claim_fee_in_lamports E t p f w = Ok fee <->
  exists tr, merkle_treasury_view E t w = Ok tr /\
    p = tr_chainlink_program tr /\ f = tr_chainlink_feed tr /\ convert_usd_fee_to_lamports (claim_fee_usd E) p f w = Ok fee.
Proof.
  unfold claim_fee_in_lamports. split.
  - intros H. inv_all H. loads. exists x. split_and!; try done. by apply merkle_treasury_view_inv.
  - intros (tr & Hv & Hp & Hf & Hc). apply merkle_treasury_view_inv in Hv as [Hk Ha]. unfold load_merkle_treasury. rewrite Hk. cbn [rbind].
    rewrite (check_seeds_bump_live _ _ _ _ _ Ha). cbn [rbind]. rewrite (check_address_live _ _ Hp). cbn [rbind].
    rewrite (check_address_live _ _ Hf). cbn [rbind]. exact Hc.
Qed.

Theorem C31_claim : forall E sg a index amount proof w w' evs, env_ok E -> merkle_exec E sg (MClaim a index amount proof) w = Ok (w', evs) ->
  exists tr fee, merkle_treasury_view E (la_treasury a) w = Ok tr /\
    la_chainlink a = tr_chainlink_program tr /\ la_feed a = tr_chainlink_feed tr /\
    claim_fee_in_lamports E (la_treasury a) (la_chainlink a) (la_feed a) w = Ok fee /\
    evs = [EvClaim amount (la_campaign a) (la_claimer a) (la_receipt a) fee index (la_recipient a)] /\
    (forall k, lam w' k = lam w k + net [(la_claimer a, la_treasury a, fee);
      (la_claimer a, la_recipient_ata a, rent_due E w (la_recipient_ata a) (ata_space E (la_mint a) (la_tp a)));
      (la_claimer a, la_receipt a, rent_due E w (la_receipt a) 8)] k) /\
    0 <= fee /\ (deployed_fees E -> fee = 0).
Proof.
  intros E sg a index amount proof w w' evs HE Hx. unfold merkle_exec in Hx. inv_all Hx.
  pose proof Hx as H0. apply claim_inv in H0 as (tr & m & c & vt & dt & fee & F).
  unfold claim in Hx. inv_all Hx. match goal with p : (world * Z)%type |- _ => destruct p as [w3 fee'] end. inv_all Hx. injection Hx as <- Hev.
  destruct F. rewrite lf_evs in Hev. injection Hev as ->.
  match goal with Hi : init_ata_if_needed _ _ _ _ _ _ _ = Ok ?a, Hr : init_account _ _ _ _ _ _ = Ok ?b |- _ => rename Hi into HI, Hr into HR, a into w1, b into w2 end.
  assert (0 <= fee) as Hf0 by (eapply fee_nonneg; [apply (proj2 (eo_fees _ HE))|exact lf_fee]).
  pose proof (init_ata_if_needed_ok _ _ _ _ _ _ _ _ HI) as (_ & t & _ & _ & _ & Hcase & Hds).
  assert (rent_due E w1 (la_receipt a) RECEIPT_SPACE = rent_due E w (la_receipt a) 8) as Hrd.
  { unfold rent_due. rewrite (ds_dat _ _ _ Hds), lookup_insert_ne by congruence. rewrite lf_receipt.
    change RECEIPT_SPACE with 8.
    assert (lam w1 (la_receipt a) = lam w (la_receipt a)) as ->; [|done].
    rewrite (init_ata_net _ _ _ _ _ _ _ _ (la_receipt a) (eo_rent _ HE) HI). simpl.
    rewrite (proj2 (Z.eqb_neq _ _)) by done. rewrite (proj2 (Z.eqb_neq _ _)); [lia|].
    apply init_account_ok in HR as (_ & Hne & _). congruence. }
  exists tr, fee. split; [by apply merkle_treasury_view_inv|]. destruct lf_oracle as [Ho1 Ho2]. split_and!; try done.
  - apply claim_fee_view_inv. exists tr. split; [by apply merkle_treasury_view_inv|]. done.
  - intros k. match goal with Ht : transfer_checked _ _ _ _ _ _ _ _ _ _ = Ok _ |- _ => rewrite (transfer_checked_lam _ _ _ _ _ _ _ _ _ _ _ k Ht) end.
    match goal with Hc : charge_fee _ _ _ _ _ _ = Ok _ |- _ => rewrite (charge_fee_net _ _ _ _ _ _ _ _ k Hf0 Hc) end.
    rewrite lam_set_dat, (init_account_net _ _ _ _ _ _ _ k (eo_rent _ HE _) HR), (init_ata_net _ _ _ _ _ _ _ _ k (eo_rent _ HE) HI), Hrd.
    simpl. lia.
  - intros [_ Hd]. unfold convert_usd_fee_to_lamports, convert_fee in lf_fee. rewrite Hd in lf_fee. by injection lf_fee as <-.
Qed.

(** Views of the fee are the only way the fee enters: if the quote aborts, so does every withdrawal and every claim. *)
Theorem C30_abort_blocks_withdraw : forall E sg ix a w e, env_ok E -> is_withdraw ix a ->
  withdrawal_fee_in_lamports E (wa_treasury a) (wa_chainlink a) (wa_feed a) w = Err e ->
  forall r, lockup_exec E sg ix w <> Ok r.
Proof.
  intros E sg ix a w e HE Hix Hv [w' evs] Hx.
  destruct (C31_withdraw _ _ _ _ _ _ _ HE Hix Hx) as (tr & fee & amount & _ & _ & _ & Hq & _). congruence.
Qed.
Theorem C30_abort_blocks_claim : forall E sg a index amount proof w e, env_ok E ->
  claim_fee_in_lamports E (la_treasury a) (la_chainlink a) (la_feed a) w = Err e ->
  forall r, merkle_exec E sg (MClaim a index amount proof) w <> Ok r.
Proof.
  intros E sg a index amount proof w e HE Hv [w' evs] Hx.
  destruct (C31_claim _ _ _ _ _ _ _ _ _ HE Hx) as (tr & fee & _ & _ & _ & Hq & _). congruence.
Qed.

(** ** Examples: the history of ToyRun with a fee of one dollar *)
Lemma history_stage1 cs tr w tr' w' : history E1 forward_clock tr w -> stage E1 cs w tr' w' ->
  history E1 forward_clock (tr ++ tr') w'.
Proof.
  intros H (Hok & <- & <-). pose proof (inv_sane _ _ (history_inv _ _ _ _ E1_ok H)) as Hs.
  pose proof (reachable_keys E1 w E1_ok (history_reach _ _ _ H)) as Hks. destruct H as (w00 & Hg & Hr). exists w00. split; [done|].
  eapply run_app; [exact Hr|]. apply script_run; [apply E1_ok|done|done|done].
Qed.
Definition v1 : world := lit
  (ltac:(let x := eval vm_compute in (lam_of (script E1 script1 w0)) in exact x))
  (ltac:(let x := eval vm_compute in (dat_of (script E1 script1 w0)) in exact x))
  (ltac:(let x := eval vm_compute in (wclock (script E1 script1 w0)) in exact x)).
Definition vtr_1 : trace := Eval vm_compute in script_trace E1 script1 w0.
Definition vtr1 : trace := vtr_1.
Lemma v1_stage : stage E1 script1 w0 vtr_1 v1.
Proof. apply stage_intro. vm_compute. reflexivity. Qed.
Definition v2 : world := lit
  (ltac:(let x := eval vm_compute in (lam_of (script E1 script2 v1)) in exact x))
  (ltac:(let x := eval vm_compute in (dat_of (script E1 script2 v1)) in exact x))
  (ltac:(let x := eval vm_compute in (wclock (script E1 script2 v1)) in exact x)).
Definition vtr_2 : trace := Eval vm_compute in script_trace E1 script2 v1.
Definition vtr2 : trace := vtr1 ++ vtr_2.
Lemma v2_stage : stage E1 script2 v1 vtr_2 v2.
Proof. apply stage_intro. vm_compute. reflexivity. Qed.
Definition v5 : world := lit
  (ltac:(let x := eval vm_compute in (lam_of (script E1 (script3 ++ script4 ++ script5) v2)) in exact x))
  (ltac:(let x := eval vm_compute in (dat_of (script E1 (script3 ++ script4 ++ script5) v2)) in exact x))
  (ltac:(let x := eval vm_compute in (wclock (script E1 (script3 ++ script4 ++ script5) v2)) in exact x)).
Definition vtr_5 : trace := Eval vm_compute in script_trace E1 (script3 ++ script4 ++ script5) v2.
Definition vtr5 : trace := vtr2 ++ vtr_5.
Lemma v5_stage : stage E1 (script3 ++ script4 ++ script5) v2 vtr_5 v5.
Proof. apply stage_intro. vm_compute. reflexivity. Qed.
Lemma v1_hist : history E1 forward_clock vtr1 v1.
Proof. apply (history_stage1 script1 [] w0); [exists w0; split; [apply w0_genesis1|constructor]|exact v1_stage]. Qed.
Lemma v2_hist : history E1 forward_clock vtr2 v2.
Proof. exact (history_stage1 _ _ _ _ _ v1_hist v2_stage). Qed.
Lemma v5_hist : history E1 forward_clock vtr5 v5.
Proof. exact (history_stage1 _ _ _ _ _ v2_hist v5_stage). Qed.

Definition collect_to (to : key) : collect_accs := CollectAccs kCollector to kTreasury.
(** After one withdrawal with a fee of 5,000,000 lamports the collector takes 4,000,000; a second time there is nothing to take. *)
Example C27_example :
  reachable E1 v2 /\
  (let! (w', evs) := lockup_exec E1 [kCollector] (LCollectFees (collect_to kOther)) v2 in
   Ok (evs, lam w' kTreasury, lam w' kOther - lam v2 kOther)) = Ok ([EvLockupFees 4000000 kCollector kOther], treasury_keep E1, 4000000) /\
  lockup_exec E1 [kCollector] (LCollectFees (collect_to kOther)) (L E1 [kCollector] (LCollectFees (collect_to kOther)) v2)
    = Err (ELockup CantCollectZeroFees) /\
  is_ok (lockup_exec E1 [kOther] (LCollectFees (collect_to kOther)) v2) = false /\
  treasury_keep E1 <= U64_MAX /\ collect_accs_ok (collect_to kOther) = true.
Proof.
  split; [exact (history_reach _ _ _ v2_hist)|]. split; [vm_compute; reflexivity|]. split; [vm_compute; reflexivity|].
  split; [vm_compute; reflexivity|]. split; [vm_compute; discriminate|vm_compute; reflexivity].
Qed.
Example C28_example :
  count is_lockup_initialize tr7 = 1%nat /\ count is_merkle_initialize tr7 = 1%nat /\
  (let! tr := lockup_treasury_view E0 kTreasury w1 in Ok (tr_fee_collector tr, tr_chainlink_program tr, tr_chainlink_feed tr)) = Ok (kCollector, kOracle, kFeed) /\
  (let! tr := merkle_treasury_view E0 kMTreasury w7 in Ok (tr_fee_collector tr)) = Ok kCollector.
Proof. split; [vm_compute; reflexivity|]. split; [vm_compute; reflexivity|]. split; vm_compute; reflexivity. Qed.
(** The withdrawal of script2 and a claim, each paying the quoted 5,000,000 lamports. *)
Example C31_example :
  withdrawal_fee_in_lamports E1 kTreasury kOracle kFeed (T 1400 v1) = Ok 5000000 /\
  lam v2 kTreasury = lam v1 kTreasury + 5000000 /\
  lam v2 kRecipient = lam v1 kRecipient - 5000000 - rent_due E1 v1 (ata kRecipient kToken SplToken) 165 /\
  reachable E1 v5 /\
  claim_fee_in_lamports E1 kMTreasury kOracle kFeed v5 = Ok 5000000 /\
  (let! (w', _) := merkle_exec E1 [kOther] (MClaim (claim_by kOther 1500 0 0 kRecipient) 0 500 [leafB; leafC]) v5 in
   Ok (lam w' kMTreasury - lam v5 kMTreasury, lam v5 kOther - lam w' kOther)) = Ok (5000000, 5000000 + rent_min E1 8).
Proof.
  split; [vm_compute; reflexivity|]. split; [vm_compute; reflexivity|]. split; [vm_compute; reflexivity|].
  split; [exact (history_reach _ _ _ v5_hist)|]. split; vm_compute; reflexivity.
Qed.

(** With a positive fee, one oracle answer whose low 64 bits are zero blocks every withdrawal from every stream. *)
Definition set_feed (r : reply round) (w : world) : world := set_dat kFeed (DFeed kOracle r (Answers 8)) w.
Lemma others_feed E w r r0 d0 : token_sane E w -> keys_sane w -> wdat w !! kFeed = Some (DFeed kOracle r0 d0) ->
  others_step E w (set_feed r w).
Proof.
  intros [H1 H2] Hks Hf. unfold set_feed.
  assert (Hlk : forall k d, match d with DFeed _ _ _ => false | _ => true end = true ->
    (<[kFeed:=DFeed kOracle r (Answers 8)]> (wdat w) !! k = Some d <-> wdat w !! k = Some d)).
  { intros k d Hd. destruct (decide (k = kFeed)) as [->|Hne].
    - rewrite lookup_insert, Hf. split; intros [= <-]; done.
    - by rewrite lookup_insert_ne. }
  assert (forall p, untouched E p w (set_dat kFeed (DFeed kOracle r (Answers 8)) w)) as Hunt.
  { intros p. split; rewrite ?wdat_set_dat.
    - intros k d Hk Hd. rewrite lam_set_dat. split; [|lia]. apply Hlk; [by destruct d|done].
    - intros k d Hk Hd. apply Hlk in Hk; [done|by destruct d].
    - intros k _ Hk. rewrite lookup_insert_ne; [done|]. intros <-. congruence.
    - intros k t Hk _ _. exists t. split; [by apply Hlk|]. split_and!; [done..|lia]. }
  split; [apply Hunt|apply Hunt| | | |].
  - intros k m a Hk Ha Hp. exists m. rewrite wdat_set_dat. split; [by apply Hlk|]. split_and!; [done..|lia].
  - split; rewrite ?wdat_set_dat.
    + intros k t Hk. apply Hlk in Hk; [|done]. exact (H1 _ _ Hk).
    + intros m Hm. specialize (H2 m Hm). rewrite total_balance_sum in *. rewrite wdat_set_dat, tok_sum_insert_zero; [|done|intros; congruence].
      unfold supply in *. rewrite wdat_set_dat. destruct (decide (m = kFeed)) as [->|Hne]; [rewrite lookup_insert, Hf in *; done|by rewrite lookup_insert_ne].
  - intros k t Hk _. rewrite wdat_set_dat in Hk. apply Hlk in Hk; [|done]. left. exists t. split; [exact Hk|done].
  - intros k t Hk. rewrite wdat_set_dat in Hk. apply Hlk in Hk; [|done]. exact (Hks _ _ Hk).
Qed.
Lemma blocked_by r : is_ok (withdrawal_fee_in_lamports E1 kTreasury kOracle kFeed (set_feed r v2)) = false ->
  reachable E1 (set_feed r v2) /\ forall sg ix a x, is_withdraw ix a -> lockup_exec E1 sg ix (set_feed r v2) <> Ok x.
Proof.
  intros Hbad. set (w := set_feed r v2) in *.
  assert (reachable E1 w) as Hre.
  { apply (reachable_later _ v2); [exact (history_reach _ _ _ v2_hist)|]. apply (step_later E1 any_clock v2 AOthers []). apply step_others; [|done].
    apply (others_feed _ _ _ (Answers (Round 20000000000 900)) (Answers 8)); [exact (inv_sane _ _ (history_inv _ _ _ _ E1_ok v2_hist))|exact (reachable_keys E1 v2 E1_ok (history_reach _ _ _ v2_hist))|vm_compute; reflexivity]. }
  split; [exact Hre|]. intros sg ix a [w' evs] Hix Hx.
  destruct (C31_withdraw _ _ _ _ _ _ _ E1_ok Hix Hx) as (tr & fee & amount & Hv & Hp & Hf & Hq & _).
  apply lockup_treasury_view_inv in Hv as [Hk _].
  pose proof (ti_addr _ _ _ _ _ (li_treasury _ _ (inv_lockup _ _ (reachable_inv _ _ E1_ok Hre)) _ _ Hk)) as Ha.
  assert (wa_treasury a = kTreasury) as Hwt.
  { assert (find_program_address E1 PLockup [s_TREASURY] = Ok (kTreasury, 255)) as Hb by (vm_compute; reflexivity).
    rewrite Hb in Ha. by injection Ha as ->. }
  assert (exists b, wdat w !! kTreasury = Some (DLockupTreasury (Treasury b kCollector kOracle kFeed))) as [b Hk2].
  { exists 255. unfold w, set_feed. rewrite wdat_set_dat, lookup_insert_ne; [|vm_compute; discriminate]. vm_compute; reflexivity. }
  rewrite Hwt in Hk, Hq. rewrite Hk2 in Hk. injection Hk as <-. simpl in Hp, Hf. rewrite Hp, Hf in Hq.
  rewrite Hq in Hbad. done.
Qed.
Definition v2_blocked : world := set_feed (Answers (Round 18446744073709551616 1350)) v2.
Theorem C30_blocked_refuted : exists E w k nft, env_ok E /\ reachable E w /\ withdrawable_amount_of E k nft w = Ok 212 /\
  forall sg ix a r, is_withdraw ix a -> lockup_exec E sg ix w <> Ok r.
Proof.
  exists E1, v2_blocked, (kStream kSender 1), (kNft kSender 1). split; [apply E1_ok|].
  destruct (blocked_by (Answers (Round 18446744073709551616 1350))) as [Hre Hno]; [vm_compute; reflexivity|].
  split; [exact Hre|]. split; [vm_compute; reflexivity|exact Hno].
Qed.
(** So does an oracle program that fails. *)
Definition v2_failing : world := set_feed Fails v2.
Theorem C30_failing_oracle_blocks : exists E w k nft prog feed, env_ok E /\ reachable E w /\ withdrawable_amount_of E k nft w = Ok 212 /\
  latest_round_data w prog feed = Fails /\
  (forall t tr, lockup_treasury_view E t w = Ok tr -> tr_chainlink_program tr = prog /\ tr_chainlink_feed tr = feed) /\
  forall sg ix a r, is_withdraw ix a -> lockup_exec E sg ix w <> Ok r.
Proof.
  exists E1, v2_failing, (kStream kSender 1), (kNft kSender 1), kOracle, kFeed. split; [apply E1_ok|].
  destruct (blocked_by Fails) as [Hre Hno]; [vm_compute; reflexivity|]. fold v2_failing in Hre, Hno.
  split; [exact Hre|]. split; [vm_compute; reflexivity|]. split; [vm_compute; reflexivity|]. split; [|exact Hno].
  intros t tr Hv. apply lockup_treasury_view_inv in Hv as [Hk _].
  pose proof (ti_addr _ _ _ _ _ (li_treasury _ _ (inv_lockup _ _ (reachable_inv _ _ E1_ok Hre)) _ _ Hk)) as Ha.
  assert (find_program_address E1 PLockup [s_TREASURY] = Ok (kTreasury, 255)) as Hb by (vm_compute; reflexivity).
  rewrite Hb in Ha. injection Ha as <- _.
  assert (wdat v2_failing !! kTreasury = Some (DLockupTreasury (Treasury 255 kCollector kOracle kFeed))) as Hk2 by (vm_compute; reflexivity).
  rewrite Hk2 in Hk. injection Hk as <-. done.
Qed.

Print Assumptions C27_lockup_collect.
Print Assumptions C27_merkle_only_collector.
Print Assumptions C28_lockup_settings.
Print Assumptions C28_merkle_once.
Print Assumptions C31_withdraw.
Print Assumptions C31_claim.
Print Assumptions C30_blocked_refuted.
