(** C01-C05: the schedule, its rounding, and the parameters of a new stream. *)
From Verif Require Export ToyRun.
From Coq Require Import QArith Lqa.
Local Open Scope Z_scope.

(** ** C01 *)

(** In every reachable world, for every stream that is neither canceled nor depleted, the view returns the
    documented amount at the current time (and so never aborts). *)
Theorem C01_streamed_amount : forall E w k nft s,
  env_ok E -> reachable E w -> stream_view E k nft w = Ok s ->
  s_canceled s = false -> s_depleted s = false ->
  let now := get_current_time w in
  let su := start_unlock (s_amounts s) in let cu := cliff_unlock (s_amounts s) in
  let dep := deposited (s_amounts s) in
  let start := t_start (s_times s) in let cliff := t_cliff (s_times s) in let end_ := t_end (s_times s) in
  exists x, streamed_amount_of E k nft w = Ok x /\
    (now < start -> x = 0) /\
    (start <= now < cliff -> x = su) /\
    (end_ <= now -> x = dep) /\
    (start <= now -> cliff <= now -> now < end_ ->
       su + cu <= x <= dep /\
       let from := if cliff =? 0 then start else cliff in
       x = su + cu + ((now - from) * 10 ^ 18 / (end_ - from)) * (dep - su - cu) / 10 ^ 18).
Proof.
  intros E w k nft s HE Hr Hv Hc Hd now su cu dep start cliff end_.
  destruct (stream_view_inv _ _ _ _ _ Hv) as (Hk & _ & _).
  pose proof (reachable_stream_ok _ _ _ _ HE Hr Hk) as Hok.
  exists (stream_schedule s now).
  rewrite (streamed_view _ _ _ _ _ Hv Hok). unfold entitled. rewrite Hc, Hd.
  split; [done|]. destruct Hok as [[Ht1 Ht2 Ht3 Ht4 Ht5] Hsu Hcu _ _ Hcn _ _ _ _ _ _].
  unfold stream_schedule, schedule. fold now su cu dep start cliff end_ in Ht1, Ht2, Ht3, Ht4, Ht5, Hsu, Hcu, Hcn |- *.
  split_and!; intros.
  - destruct (Z.ltb_spec now start); lia.
  - destruct (Z.ltb_spec now start); [lia|]. destruct (Z.ltb_spec now cliff); lia.
  - destruct (Z.ltb_spec now start); [lia|]. destruct (Z.ltb_spec now cliff); [lia|].
    destruct (Z.leb_spec end_ now); lia.
  - destruct (Z.ltb_spec now start); [lia|]. destruct (Z.ltb_spec now cliff); [lia|].
    destruct (Z.leb_spec end_ now); [lia|]. unfold linear_start.
    set (from := if cliff =? 0 then start else cliff).
    assert (start <= from < end_ /\ from <= now) as [Hf1 Hf2].
    { unfold from. destruct (Z.eqb_spec cliff 0); lia. }
    replace (dep - su - cu) with (dep - (su + cu)) by lia.
    split; [|done].
    pose proof (share_bounds (now - from) (end_ - from) (dep - (su + cu))) as Hsh.
    unfold share in Hsh. rewrite pow18. lia.
Qed.
Example C01_example : exists s, reachable E0 w2 /\ stream_view E0 (kStream kSender 1) (kNft kSender 1) w2 = Ok s /\
  s_canceled s = false /\ s_depleted s = false /\ streamed_amount_of E0 (kStream kSender 1) (kNft kSender 1) w2 = Ok 362.
Proof.
  eexists. split; [eapply history_reach, w2_hist|]. split; [vm_compute; reflexivity|]. split; [done|]. split; [done|].
  vm_compute; reflexivity.
Qed.

(** ** C02 *)

(** While the stream's data is unchanged, a later call never returns less. *)
Theorem C02_monotone : forall E w1 w2 k nft s,
  env_ok E -> reachable E w1 -> stream_view E k nft w1 = Ok s -> stream_view E k nft w2 = Ok s ->
  get_current_time w1 <= get_current_time w2 ->
  exists x1 x2, streamed_amount_of E k nft w1 = Ok x1 /\ streamed_amount_of E k nft w2 = Ok x2 /\ x1 <= x2.
Proof.
  intros E w1 w2 k nft s HE Hr Hv1 Hv2 Hle.
  destruct (stream_view_inv _ _ _ _ _ Hv1) as (Hk & _ & _).
  pose proof (reachable_stream_ok _ _ _ _ HE Hr Hk) as Hok.
  exists (entitled s (get_current_time w1)), (entitled s (get_current_time w2)).
  split_and!; [by apply streamed_view|by apply streamed_view|by apply entitled_mono].
Qed.
(** Nor does it in any history with a clock that does not go back, whatever happens to the stream in between
    (withdrawals, cancellation, renouncement). *)
Theorem C02_monotone_history : forall E w1 w2 k nft x1,
  env_ok E -> reachable E w1 -> later_fwd E w1 w2 ->
  streamed_amount_of E k nft w1 = Ok x1 -> (exists m, wdat w2 !! nft = Some (DMint m)) ->
  exists x2, streamed_amount_of E k nft w2 = Ok x2 /\ x1 <= x2.
Proof.
  intros E w1 w2 k nft x1 HE Hr Hl Hx [m Hm].
  unfold streamed_amount_of in Hx. destruct (stream_view E k nft w1) as [s|] eqn:Hv; [|done].
  destruct (stream_view_inv _ _ _ _ _ Hv) as (Hk & _ & Ha).
  pose proof (reachable_inv _ _ HE Hr) as Hi.
  pose proof (inv_stream_ok _ _ _ _ Hi Hk) as Hok.
  cbn [rbind] in Hx. rewrite (streamed_entitled s) in Hx by (done || apply now_range). injection Hx as <-.
  pose proof Hl as (tr & Hrun & Hw).
  destruct (run_stream (fun w s' => 0 <= wclock w <= U64_MAX /\ s_bump s' = s_bump s /\
     entitled s (get_current_time w1) <= entitled s' (get_current_time w))
     E forward_clock w1 s tr w2 k HE Hi Hrun Hk) as (s2 & Hs2 & _ & Hb & Hle).
  - done.
  - intros w a evs w' s1 s1' Hiw Hs H1 H1' Hok1 (Hc & Hb & Hle) Hch.
    pose proof (step_clock_fwd _ _ _ _ _ HE Hs) as Hclk.
    destruct Hch as [(sg & ix & -> & Hsg & Hex & Hcl & Hch)|(_ & -> & _)].
    + rewrite (now_same w w') by done. rewrite Hcl.
      rewrite (stream_change_entitled _ _ _ _ _ _ _ _ _ Hok1 Hch).
      destruct (stream_change_terms _ _ _ _ _ _ _ _ _ Hch) as (_ & _ & _ & Hb' & _).
      split_and!; try lia; congruence.
    + split_and!; try lia; try done.
      destruct Hclk as [Hcl|Hcl].
      * by rewrite (now_same w w') by done.
      * etrans; [exact Hle|]. rewrite !now_clock by lia. apply entitled_mono; [done|lia].
  - exists (entitled s2 (get_current_time w2)). split; [|done].
    assert (stream_view E k nft w2 = Ok s2) as Hv2.
    { unfold stream_view, load_stream, load_mint, check_seeds_bump. rewrite Hs2, Hm. cbn [rbind].
      rewrite Hb, Ha. rewrite bool_decide_true by done. done. }
    apply streamed_view; [done|]. apply (inv_stream_ok E w2 k); [|done].
    by eapply run_inv.
Qed.
Example C02_example : exists s, reachable E0 w2 /\ stream_view E0 (kStream kSender 1) (kNft kSender 1) w2 = Ok s /\
  stream_view E0 (kStream kSender 1) (kNft kSender 1) (T 1500 w2) = Ok s /\
  streamed_amount_of E0 (kStream kSender 1) (kNft kSender 1) w2 = Ok 362 /\
  streamed_amount_of E0 (kStream kSender 1) (kNft kSender 1) (T 1500 w2) = Ok 468.
Proof.
  eexists. split; [eapply history_reach, w2_hist|]. split; [vm_compute; reflexivity|]. split; [vm_compute; reflexivity|].
  split; vm_compute; reflexivity.
Qed.
Example C02_history_example : reachable E0 w2 /\ later_fwd E0 w2 w3 /\
  streamed_amount_of E0 (kStream kSender 1) (kNft kSender 1) w2 = Ok 362 /\
  streamed_amount_of E0 (kStream kSender 1) (kNft kSender 1) w3 = Ok 575 /\
  exists m, wdat w3 !! kNft kSender 1 = Some (DMint m).
Proof.
  split; [eapply history_reach, w2_hist|]. split; [exact (stage_later_fwd _ _ _ _ _ w2_hist stage3 eq_refl)|].
  split; [vm_compute; reflexivity|]. split; [vm_compute; reflexivity|]. eexists. vm_compute. reflexivity.
Qed.

(** ** C03 *)

(** The exact rational line between (start or cliff) and end. *)
Definition exact_line (s : stream_data) (now : Z) : Q :=
  let from := if t_cliff (s_times s) =? 0 then t_start (s_times s) else t_cliff (s_times s) in
  let unlocks := start_unlock (s_amounts s) + cliff_unlock (s_amounts s) in
  (inject_Z unlocks + inject_Z ((deposited (s_amounts s) - unlocks) * (now - from)) / inject_Z (t_end (s_times s) - from))%Q.

Theorem C03_rounding : forall E w k nft s x,
  env_ok E -> reachable E w -> stream_view E k nft w = Ok s -> s_canceled s = false -> s_depleted s = false ->
  let now := get_current_time w in
  t_start (s_times s) <= now -> t_cliff (s_times s) <= now -> now < t_end (s_times s) ->
  streamed_amount_of E k nft w = Ok x ->
  let rest := deposited (s_amounts s) - (start_unlock (s_amounts s) + cliff_unlock (s_amounts s)) in
  (inject_Z x <= exact_line s now)%Q /\
  (exact_line s now < inject_Z x + 1 + inject_Z rest / inject_Z (10 ^ 18))%Q /\
  (exact_line s now < inject_Z x + 20)%Q.
Proof.
  intros E w k nft s x HE Hr Hv Hc Hd now Hn1 Hn2 Hn3 Hx rest.
  destruct (stream_view_inv _ _ _ _ _ Hv) as (Hk & _ & _).
  pose proof (reachable_stream_ok _ _ _ _ HE Hr Hk) as Hok.
  rewrite (streamed_view _ _ _ _ _ Hv Hok) in Hx. injection Hx as <-.
  unfold entitled. rewrite Hc, Hd. unfold stream_schedule.
  fold now. rewrite schedule_interior by done.
  unfold exact_line. fold rest. change (if t_cliff (s_times s) =? 0 then t_start (s_times s) else t_cliff (s_times s))
    with (linear_start (t_start (s_times s)) (t_cliff (s_times s))).
  set (from := linear_start (t_start (s_times s)) (t_cliff (s_times s))).
  destruct Hok as [[Ht1 Ht2 Ht3 Ht4 Ht5] Hsu Hcu Hdm _ Hcn _ _ _ _ _ _].
  assert (from < t_end (s_times s) /\ from <= now) as [Hf1 Hf2].
  { unfold from, linear_start. destruct (Z.eqb_spec (t_cliff (s_times s)) 0); lia. }
  set (t := t_end (s_times s) - from). set (e := now - from).
  set (U := start_unlock (s_amounts s) + cliff_unlock (s_amounts s)).
  assert (0 < t) by lia. assert (0 <= e) by lia. assert (0 <= rest) by lia.
  destruct (share_exact e t rest) as [Hs1 Hs2]; [lia..|].
  set (sh := share e t rest) in *.
  assert (Ht : (0 < inject_Z t)%Q) by (change 0%Q with (inject_Z 0); rewrite <- Zlt_Qlt; lia).
  assert (HSF : (0 < inject_Z SCALING_FACTOR)%Q) by reflexivity.
  assert (Ha : (inject_Z sh <= inject_Z (rest * e) / inject_Z t)%Q).
  { apply Qle_shift_div_l; [done|]. rewrite <- inject_Z_mult, <- Zle_Qle. lia. }
  assert (Hb : (inject_Z (rest * e) / inject_Z t < inject_Z sh + 1 + inject_Z rest / inject_Z SCALING_FACTOR)%Q).
  { apply Qlt_shift_div_r; [done|].
    setoid_replace ((inject_Z sh + 1 + inject_Z rest / inject_Z SCALING_FACTOR) * inject_Z t)%Q
      with (inject_Z ((sh * SCALING_FACTOR + SCALING_FACTOR + rest) * t) / inject_Z SCALING_FACTOR)%Q.
    - apply Qlt_shift_div_l; [done|]. rewrite <- inject_Z_mult, <- Zlt_Qlt. lia.
    - rewrite inject_Z_mult, !inject_Z_plus, inject_Z_mult. field. unfold SCALING_FACTOR. discriminate. }
  change (10 ^ 18) with SCALING_FACTOR. rewrite (inject_Z_plus U sh).
  split_and!; [lra|lra|].
  assert ((inject_Z rest / inject_Z SCALING_FACTOR <= inject_Z 19)%Q).
  { apply Qle_shift_div_r; [done|]. rewrite <- inject_Z_mult, <- Zle_Qle. unfold SCALING_FACTOR, U64_MAX in *. lia. }
  change (inject_Z 19) with 19%Q in *. lra.
Qed.
Example C03_example : exists s, reachable E0 w2 /\ stream_view E0 (kStream kSender 1) (kNft kSender 1) w2 = Ok s /\
  s_canceled s = false /\ s_depleted s = false /\ t_start (s_times s) <= 1400 /\ t_cliff (s_times s) <= 1400 < t_end (s_times s) /\
  get_current_time w2 = 1400 /\ streamed_amount_of E0 (kStream kSender 1) (kNft kSender 1) w2 = Ok 362 /\
  (exact_line s 1400 == 3625 # 10)%Q.
Proof.
  eexists. split; [eapply history_reach, w2_hist|]. split; [vm_compute; reflexivity|]. simpl.
  split; [done|]. split; [done|]. split; [done|]. split; [done|]. split; [vm_compute; reflexivity|].
  split; [vm_compute; reflexivity|]. reflexivity.
Qed.

(** ** C04 *)

(** The documented requirements, in the order in which they are reported. *)
Definition create_requirements (deposit start cliff end_ su cu : Z) : list (Prop * lockup_error) :=
  [ (0 < deposit, DepositAmountZero);
    (0 < start, StartTimeZero);
    (start < end_, StartTimeNotLessThanEndTime);
    (cliff = 0 \/ start < cliff, StartTimeNotLessThanCliffTime);
    (cliff = 0 \/ cliff < end_, CliffTimeNotLessThanEndTime);
    (cliff <> 0 \/ cu = 0, CliffTimeZeroUnlockAmountNotZero);
    (su + cu <= deposit, UnlockAmountsSumTooHigh) ].
(** [e] is the error of the first requirement that does not hold. *)
Definition first_violated (reqs : list (Prop * lockup_error)) (e : lockup_error) : Prop :=
  exists l1 (P : Prop) l2, reqs = l1 ++ (P, e) :: l2 /\ Forall (fun r => fst r) l1 /\ ~ P.

Definition no_lockup_error {A} (r : res A) : Prop := forall e, r <> Err (ELockup e).
Lemma nle_bind {A B} (r : res A) (f : A -> res B) : no_lockup_error r -> (forall a, no_lockup_error (f a)) ->
  no_lockup_error (rbind r f).
Proof. intros Hr Hf. destruct r as [a|e]; cbn [rbind]; [apply Hf|]. intros e' [= ->]. by apply (Hr e'). Qed.
Lemma nle_ok {A} (a : A) : no_lockup_error (Ok a). Proof. by intros ?. Qed.
Lemma nle_ensure b e : (forall x, e <> ELockup x) -> no_lockup_error (ensure b e).
Proof. intros He x. unfold ensure. destruct b; [done|]. intros [= ->]. by apply (He x). Qed.
Section fpa.
Local Transparent find_program_address.
Lemma fpa_plain E p seeds : no_lockup_error (find_program_address E p seeds).
Proof. intros e. unfold find_program_address, of_option. by destruct (find_bump E p seeds 255). Qed.
Local Transparent nft_name.
Lemma name_plain m : no_lockup_error (nft_name m).
Proof. intros e. unfold nft_name. cbv zeta. by destruct (_ <? _)%nat. Qed.
End fpa.
Ltac nle :=
  repeat (first
    [ apply nle_ok | apply nle_bind; [|intros ?] | apply nle_ensure; done
    | match goal with
      | |- no_lockup_error (Err _) => let e := fresh in intros e; discriminate
      | |- no_lockup_error (match ?x with _ => _ end) => destruct x eqn:?
      | |- no_lockup_error (let _ := _ in _) => cbv zeta
      | |- no_lockup_error (load_token _ _) => unfold load_token
      | |- no_lockup_error (load_mint _ _) => unfold load_mint
      | |- no_lockup_error (mint_to _ _ _ _ _ _ _) => unfold mint_to
      | |- no_lockup_error (transfer_checked _ _ _ _ _ _ _ _ _ _) => unfold transfer_checked
      | |- no_lockup_error (system_transfer _ _ _ _) => unfold system_transfer
      | |- no_lockup_error (init_account _ _ _ _ _ _) => unfold init_account
      | |- no_lockup_error (fund_account _ _ _ _ _) => unfold fund_account
      | |- no_lockup_error (create_metadata _ _ _ _ _ _ _ _ _ _ _) => unfold create_metadata
      | |- no_lockup_error (create_master_edition _ _ _ _ _ _ _ _) => unfold create_master_edition
      | |- no_lockup_error (set_and_verify_collection _ _ _ _ _ _ _ _) => unfold set_and_verify_collection
      | |- no_lockup_error (check_seeds _ _ _ _) => unfold check_seeds
      | |- no_lockup_error (find_program_address _ _ _) => apply fpa_plain
      | |- no_lockup_error (nft_name _) => apply name_plain
      | |- no_lockup_error (u64_add _ _) => unfold u64_add
      | |- no_lockup_error (of_option _ _) => unfold of_option
      end ]).
Lemma nft_create_plain E a b w : no_lockup_error (nft_create_stream E a b w).
Proof. unfold nft_create_stream. nle.
Qed.
Lemma transfer_plain E tp f t au sg m am d w : no_lockup_error (transfer_checked E tp f t au sg m am d w).
Proof. nle. Qed.

Lemma check_create_first dep st cl en su cu : 0 <= dep <= U64_MAX -> 0 <= st -> 0 <= cl -> 0 <= su -> 0 <= cu ->
  forall e, check_create dep st cl en su cu = Err e <->
    exists le, e = ELockup le /\ first_violated (create_requirements dep st cl en su cu) le.
Proof.
  intros Hd Hst Hcl Hsu Hcu e.
  assert (Hskip : forall (P : Prop) e0 reqs le, P -> first_violated ((P, e0) :: reqs) le <-> first_violated reqs le).
  { intros P e0 reqs le HP. split.
    - intros (l1 & Q & l2 & Heq & Hall & HQ). destruct l1 as [|x l1].
      + simpl in Heq. injection Heq as -> -> ->. done.
      + simpl in Heq. injection Heq as <- ->. apply Forall_cons in Hall as [_ Hall]. by exists l1, Q, l2.
    - intros (l1 & Q & l2 & -> & Hall & HQ). exists ((P, e0) :: l1), Q, l2. split_and!; [done| |done]. by constructor. }
  assert (Hhit : forall (P : Prop) e0 reqs le, ~ P -> first_violated ((P, e0) :: reqs) le <-> le = e0).
  { intros P e0 reqs le HP. split.
    - intros (l1 & Q & l2 & Heq & Hall & HQ). destruct l1 as [|x l1].
      + simpl in Heq. by injection Heq as -> -> ->.
      + simpl in Heq. injection Heq as <- ->. by apply Forall_cons in Hall as [HP' _].
    - intros ->. exists [], P, reqs. split_and!; [done|constructor|done]. }
  assert (Hend : forall le, first_violated [] le <-> False).
  { intros le. split; [|done]. intros (l1 & Q & l2 & Heq & _). by destruct l1. }
  assert (Hres : forall e0, (Err (A:=unit) (ELockup e0) = Err e <->
      exists le, e = ELockup le /\ le = e0)) by (intros e0; naive_solver).
  unfold create_requirements, check_create.
  destruct (Z.eqb_spec dep 0); [setoid_rewrite Hhit; [apply Hres|lia]|].
  setoid_rewrite Hskip at 1; [|lia].
  destruct (Z.eqb_spec st 0); [setoid_rewrite Hhit; [apply Hres|lia]|].
  setoid_rewrite Hskip at 1; [|lia].
  destruct (Z.leb_spec en st); [setoid_rewrite Hhit; [apply Hres|lia]|].
  setoid_rewrite Hskip at 1; [|lia].
  assert (Hlast : (let! t := if su + cu <=? U64_MAX then Ok (su + cu) else Err (ELockup UnlockAmountsSumTooHigh) in
     if dep <? t then Err (ELockup UnlockAmountsSumTooHigh) else Ok tt) = Err e <->
     (exists le, e = ELockup le /\ first_violated [(su + cu <= dep, UnlockAmountsSumTooHigh)] le)).
  { destruct (Z.leb_spec (su + cu) U64_MAX); cbn [rbind].
    - destruct (Z.ltb_spec dep (su + cu)).
      + setoid_rewrite Hhit; [apply Hres|lia].
      + setoid_rewrite Hskip; [|lia]. setoid_rewrite Hend. naive_solver.
    - setoid_rewrite Hhit; [apply Hres|lia]. }
  destruct (Z.ltb_spec 0 cl).
  - destruct (Z.leb_spec cl st); cbn [rbind].
    { setoid_rewrite Hhit; [apply Hres|lia]. }
    setoid_rewrite Hskip at 1; [|lia].
    destruct (Z.leb_spec en cl); cbn [rbind].
    { setoid_rewrite Hhit; [apply Hres|lia]. }
    setoid_rewrite Hskip at 1; [|lia]. setoid_rewrite Hskip at 1; [|lia]. exact Hlast.
  - setoid_rewrite Hskip at 1; [|lia]. setoid_rewrite Hskip at 1; [|lia].
    destruct (Z.ltb_spec 0 cu); cbn [rbind].
    { setoid_rewrite Hhit; [apply Hres|lia]. }
    setoid_rewrite Hskip at 1; [|lia]. exact Hlast.
Qed.

Definition terms_of (p : create_args) : Prop :=
  valid_terms (p_deposit p) (p_start p) (p_cliff p) (p_end p) (p_start_unlock p) (p_cliff_unlock p).
Definition requirements_of (p : create_args) : list (Prop * lockup_error) :=
  create_requirements (p_deposit p) (p_start p) (p_cliff p) (p_end p) (p_start_unlock p) (p_cliff_unlock p).

(** Success implies valid terms. *)
Theorem C04_accepted_is_valid : forall E sg a p w w' evs,
  lockup_exec E sg (LCreateTs a p) w = Ok (w', evs) -> terms_of p.
Proof.
  intros E sg a p w w' evs Hx. apply lockup_exec_effect in Hx as [_ Heff].
  inversion Heff as [| ? a' p' ct nc cm dm sb s name c0 c1 ? ? Hix Hargs F | | |? ? ? ? ? ? ? ? ? ? ? ? ? ? Hix |]; subst.
  - destruct Hix as [[= <- <-]|(q & ? & _)]; [|done].
    pose proof (rf_check _ _ _ _ _ _ _ _ _ _ _ _ _ _ _ _ F) as Hc.
    destruct Hargs as (? & ? & ? & ? & ? & ? & ?). apply check_create_valid in Hc; [done|lia..].
  - destruct Hix as [?|[? _]]; done.
Qed.

(** Once the accounts pass Anchor's checks, the instruction reports a Lockup error exactly when a
    requirement is violated, and it is the error of the first one violated. *)
Theorem C04_rejected_with_first_error : forall E sg a p w x e,
  lockup_ix_ok (LCreateTs a p) = true -> create_accounts E sg a (p_salt p) w = Ok x ->
  (lockup_exec E sg (LCreateTs a p) w = Err (ELockup e) <-> first_violated (requirements_of p) e).
Proof.
  intros E sg a p w x e Hok Hacc. unfold lockup_exec. rewrite Hok. cbn [ensure rbind].
  unfold create_with_timestamps. rewrite Hacc. cbn [rbind]. destruct x as [[[[w1 sb] mb] nc] dm].
  unfold create_handler. simpl in Hok. ranges.
  pose proof (check_create_first (p_deposit p) (p_start p) (p_cliff p) (p_end p) (p_start_unlock p) (p_cliff_unlock p)) as Hf.
  destruct (check_create _ _ _ _ _ _) as [[]|e'] eqn:Hc; cbn [rbind].
  - split.
    + intros He. exfalso. revert He. match goal with |- ?r = _ -> _ => assert (no_lockup_error r) as Hn end.
      { apply nle_bind; [apply nft_create_plain|]. intros w2. apply nle_bind; [nle|]. intros t.
        apply nle_bind; [apply transfer_plain|]. intros w3. apply nle_ok. }
      apply Hn.
    + intros Hv. assert (Ok tt = Err (ELockup e)) as Habs; [|done].
      apply Hf; try lia. by exists e.
  - split.
    + intros [= ->]. destruct (Hf ltac:(lia) ltac:(lia) ltac:(lia) ltac:(lia) ltac:(lia) (ELockup e)) as [Hf1 _].
      destruct (Hf1 eq_refl) as (le & [= <-] & Hv). exact Hv.
    + intros Hv. destruct (Hf ltac:(lia) ltac:(lia) ltac:(lia) ltac:(lia) ltac:(lia) (ELockup e)) as [_ Hf2].
      assert (Err e' = Err (A:=unit) (ELockup e)) as [= ->]; [|done].
      apply Hf2. by exists e.
Qed.
(** The requirements together are the documented conditions. *)
Theorem C04_requirements : forall p, create_args_ok p ->
  (terms_of p <-> Forall (fun r => fst r) (requirements_of p)) /\
  (terms_of p <-> check_create (p_deposit p) (p_start p) (p_cliff p) (p_end p) (p_start_unlock p) (p_cliff_unlock p) = Ok tt).
Proof.
  intros p (? & ? & ? & ? & ? & ? & ?). split.
  - unfold terms_of, requirements_of, create_requirements. rewrite !Forall_cons. simpl. split.
    + intros [? ? ? ? ?]. repeat split; try lia. constructor.
    + intros (? & ? & ? & ? & ? & ? & ? & _). split; try lia.
  - symmetry. apply check_create_valid; lia.
Qed.
Example C04_example_ok : is_ok (lockup_exec E0 [kSender] (LCreateTs (create_for 1) dep1) w_ini) = true /\
  terms_of dep1.
Proof. split; [vm_compute; reflexivity|]. split; simpl; lia. Qed.
Example C04_example_bad :
  let bad := CreateArgs 1 1000 1100 1100 2000 100 50 true in
  is_ok (create_accounts E0 [kSender] (create_for 1) 1 w_ini) = true /\
  first_violated (requirements_of bad) StartTimeNotLessThanCliffTime /\
  match lockup_exec E0 [kSender] (LCreateTs (create_for 1) bad) w_ini with
  | Err (ELockup StartTimeNotLessThanCliffTime) => True | _ => False end.
Proof.
  split; [vm_compute; reflexivity|]. split; [|vm_compute; exact I].
  eexists [_; _; _], _, _. split; [reflexivity|]. simpl. split; [|lia]. repeat constructor; simpl; lia.
Qed.

(** ** C05 *)

(** The timestamps parameters that a durations call stands for at time [now]. *)
Definition as_timestamps (q : create_dur_args) (now : Z) : create_args := {|
  p_salt := q_salt q; p_deposit := q_deposit q;
  p_start := now;
  p_cliff := if q_cliff_duration q =? 0 then 0 else now + q_cliff_duration q;
  p_end := now + q_total_duration q;
  p_start_unlock := q_start_unlock q; p_cliff_unlock := q_cliff_unlock q; p_cancelable := q_cancelable q |}.
Definition durations_fit (q : create_dur_args) (now : Z) : Prop :=
  (q_cliff_duration q <> 0 -> now + q_cliff_duration q <= U64_MAX) /\ now + q_total_duration q <= U64_MAX.

Theorem C05_durations : forall E sg a q w,
  lockup_ix_ok (LCreateDur a q) = true ->
  (durations_fit q (get_current_time w) ->
     lockup_exec E sg (LCreateDur a q) w = lockup_exec E sg (LCreateTs a (as_timestamps q (get_current_time w))) w) /\
  (~ durations_fit q (get_current_time w) -> exists e, lockup_exec E sg (LCreateDur a q) w = Err e).
Proof.
  intros E sg a q w Hok. unfold lockup_exec. rewrite Hok. cbn [ensure rbind].
  pose proof (now_range w) as Hnow. simpl in Hok. ranges.
  unfold create_with_durations, create_with_timestamps.
  split.
  - intros [Hf1 Hf2].
    assert (lockup_ix_ok (LCreateTs a (as_timestamps q (get_current_time w))) = true) as ->.
    { simpl. rewrite H. unfold is_u128, is_u64. destruct (Z.eqb_spec (q_cliff_duration q) 0);
      repeat (apply andb_true_intro; split); try done; apply Z.leb_le; lia. }
    cbn [ensure rbind].
    change (p_salt (as_timestamps q (get_current_time w))) with (q_salt q).
    destruct (create_accounts E sg a (q_salt q) w) as [[[[[w1 sb] mb] nc] dm]|e] eqn:Hacc; [|done].
    cbn [rbind]. rewrite (now_same w w1) by (by eapply create_accounts_clock).
    unfold u64_add. unfold as_timestamps.
    destruct (Z.leb_spec (get_current_time w + q_total_duration q) U64_MAX); [|lia].
    destruct (Z.ltb_spec 0 (q_cliff_duration q)), (Z.eqb_spec (q_cliff_duration q) 0); try lia.
    + destruct (Z.leb_spec (get_current_time w + q_cliff_duration q) U64_MAX); [|lia]. done.
    + done.
  - intros Hnf. destruct (create_accounts E sg a (q_salt q) w) as [[[[[w1 sb] mb] nc] dm]|e] eqn:Hacc; [|by eexists].
    cbn [rbind]. rewrite (now_same w w1) by (by eapply create_accounts_clock). unfold u64_add.
    destruct (Z.ltb_spec 0 (q_cliff_duration q)).
    + destruct (Z.leb_spec (get_current_time w + q_cliff_duration q) U64_MAX); cbn [rbind]; [|by eexists].
      destruct (Z.leb_spec (get_current_time w + q_total_duration q) U64_MAX); cbn [rbind]; [|by eexists].
      exfalso. apply Hnf. split; lia.
    + cbn [rbind]. destruct (Z.leb_spec (get_current_time w + q_total_duration q) U64_MAX); cbn [rbind]; [|by eexists].
      exfalso. apply Hnf. split; lia.
Qed.
Example C05_example : lockup_ix_ok (LCreateDur (create_for 2) dur2) = true /\
  durations_fit dur2 (get_current_time w0) /\
  is_ok (lockup_exec E0 [kSender] (LCreateDur (create_for 2) dur2) w_one) = true /\
  ~ durations_fit (CreateDurArgs 2 3000 0 U64_MAX 0 0 true) (get_current_time w0).
Proof.
  split; [vm_compute; reflexivity|]. split; [split; vm_compute; congruence|]. split; [vm_compute; reflexivity|].
  intros [_ H]. vm_compute in H. congruence.
Qed.

Print Assumptions C01_streamed_amount.
Print Assumptions C02_monotone_history.
Print Assumptions C03_rounding.
Print Assumptions C04_rejected_with_first_error.
Print Assumptions C05_durations.
