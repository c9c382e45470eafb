(** C89: better terms never pay less, and splitting a deposit changes at most the rounding. *)
From Verif Require Export PropShift.
From Verif Require Import PropSchedule PropStream ToyRun Lockup.

(** ** Statement *)
(** [s'] is at least as generous as [s]: nothing is smaller, nothing comes later (no cliff is 0, before any cliff). *)
Record better_terms (s s' : stream_data) : Prop := {
  bt_deposit : deposited (s_amounts s) <= deposited (s_amounts s');
  bt_start_unlock : start_unlock (s_amounts s) <= start_unlock (s_amounts s');
  bt_cliff_unlock : cliff_unlock (s_amounts s) <= cliff_unlock (s_amounts s');
  bt_start : t_start (s_times s') <= t_start (s_times s);
  bt_cliff : t_cliff (s_times s') <= t_cliff (s_times s);
  bt_end : t_end (s_times s') <= t_end (s_times s) }.
Fixpoint total (f : amounts -> Z) (l : list stream_data) : Z :=
  match l with [] => 0 | s :: l => f (s_amounts s) + total f l end.
(** The streams [l] have the times of [s] and together its deposit and its unlocks. *)
Record split_of (s : stream_data) (l : list stream_data) : Prop := {
  sp_nonempty : l <> [];
  sp_times : forall x, x ∈ l -> s_times x = s_times s;
  sp_deposit : total deposited l = deposited (s_amounts s);
  sp_start_unlock : total start_unlock l = start_unlock (s_amounts s);
  sp_cliff_unlock : total cliff_unlock l = cliff_unlock (s_amounts s) }.
Fixpoint zsum (l : list Z) : Z := match l with [] => 0 | x :: l => x + zsum l end.

(** ** Arithmetic *)
Lemma share_in_order e t r e' t' : 0 < t -> 0 < t' -> 0 <= e -> 0 <= e' -> e * t' <= e' * t -> 0 <= r ->
  e * SCALING_FACTOR / t <= e' * SCALING_FACTOR / t'.
Proof.
  intros Ht Ht' He He' Hle _. pose proof sf_pos as Hs.
  apply Z.div_le_lower_bound; [lia|].
  pose proof (Z.mul_div_le (e * SCALING_FACTOR) t Ht) as H. set (q := e * SCALING_FACTOR / t) in *.
  assert (t * (t' * q) <= t * (e' * SCALING_FACTOR)) as H2; [|nia].
  transitivity (t' * (e * SCALING_FACTOR)); [nia|]. nia.
Qed.
Lemma unlock_share_mono p p' u u' d d' : 0 <= p <= p' -> p' <= SCALING_FACTOR -> 0 <= u <= u' -> u' <= d' -> u <= d -> d <= d' ->
  u + p * (d - u) / SCALING_FACTOR <= u' + p' * (d' - u') / SCALING_FACTOR.
Proof.
  intros Hp Hp' Hu Hu' Hud Hd. pose proof sf_pos as Hs.
  rewrite <- !(Z.add_comm (_ / _)). rewrite <- !Z.div_add by lia.
  apply Z.div_le_mono; [lia|]. nia.
Qed.

Lemma better_schedule s s' now now' : stream_ok s -> stream_ok s' -> better_terms s s' -> now <= now' ->
  stream_schedule s now <= stream_schedule s' now'.
Proof.
  intros K K' [B1 B2 B3 B4 B5 B6] Hn.
  transitivity (stream_schedule s' now).
  2:{ destruct K'. unfold stream_schedule. apply schedule_mono; assumption. }
  pose proof (stream_schedule_bounds s now K) as Bs. pose proof (stream_schedule_bounds s' now K') as Bs'.
  destruct K as [[V1 V2 V3 V4 V5] Su Cu _ _ Cn _ _ _ _ _ _]. destruct K' as [[V1' V2' V3' V4' V5'] Su' Cu' _ _ Cn' _ _ _ _ _ _].
  unfold stream_schedule, schedule in *.
  set (d := deposited (s_amounts s)) in *. set (d' := deposited (s_amounts s')) in *.
  set (su := start_unlock (s_amounts s)) in *. set (su' := start_unlock (s_amounts s')) in *.
  set (cu := cliff_unlock (s_amounts s)) in *. set (cu' := cliff_unlock (s_amounts s')) in *.
  set (st := t_start (s_times s)) in *. set (st' := t_start (s_times s')) in *.
  set (cl := t_cliff (s_times s)) in *. set (cl' := t_cliff (s_times s')) in *.
  set (en := t_end (s_times s)) in *. set (en' := t_end (s_times s')) in *.
  clearbody d d' su su' cu cu' st st' cl cl' en en'.
  rewrite pow18 in *.
  destruct (Z.ltb_spec now st) as [|Hst]; [lia|].
  destruct (Z.ltb_spec now st') as [|Hst']; [lia|].
  destruct (Z.leb_spec en' now) as [He'|He'].
  { destruct (Z.ltb_spec now cl'); [lia|]. lia. }
  destruct (Z.ltb_spec now cl') as [|Hcl'].
  { destruct (Z.ltb_spec now cl); lia. }
  assert (st' <= linear_start st' cl' < en' /\ linear_start st' cl' <= now) as [F1' F2'].
  { unfold linear_start. destruct (Z.eqb_spec cl' 0); lia. }
  destruct (Z.ltb_spec now cl) as [|Hcl].
  { pose proof (share_bounds (now - linear_start st' cl') (en' - linear_start st' cl') (d' - (su' + cu'))) as Hsh.
    unfold share in Hsh. lia. }
  destruct (Z.leb_spec en now) as [|He]; [lia|].
  assert (st <= linear_start st cl < en /\ linear_start st cl <= now) as [F1 F2].
  { unfold linear_start. destruct (Z.eqb_spec cl 0); lia. }
  assert (linear_start st' cl' <= linear_start st cl) as F3.
  { unfold linear_start. destruct (Z.eqb_spec cl 0), (Z.eqb_spec cl' 0); lia. }
  set (f := linear_start st cl) in *. set (f' := linear_start st' cl') in *. clearbody f f'.
  apply unlock_share_mono; try lia.
  - split; [apply Z.div_pos; pose proof sf_pos; nia|].
    apply (share_in_order _ _ 0); try lia. nia.
  - apply pct_bounds; lia.
Qed.

Lemma floor_split p S a b : 0 < S -> p * a / S + p * b / S <= p * (a + b) / S <= p * a / S + p * b / S + 1.
Proof.
  intros HS. pose proof (Z.div_mod (p * a) S). pose proof (Z.div_mod (p * b) S). pose proof (Z.div_mod (p * (a + b)) S).
  pose proof (Z.mod_pos_bound (p * a) S HS). pose proof (Z.mod_pos_bound (p * b) S HS). pose proof (Z.mod_pos_bound (p * (a + b)) S HS).
  rewrite Z.mul_add_distr_l in *. nia.
Qed.
Lemma floor_split_list p S l : 0 < S ->
  let g := fun x : stream_data => start_unlock (s_amounts x) + cliff_unlock (s_amounts x) +
    p * (deposited (s_amounts x) - (start_unlock (s_amounts x) + cliff_unlock (s_amounts x))) / S in
  let whole := total start_unlock l + total cliff_unlock l + p * (total deposited l - (total start_unlock l + total cliff_unlock l)) / S in
  zsum (map g l) <= whole /\ (l <> [] -> whole <= zsum (map g l) + (Z.of_nat (length l) - 1)).
Proof.
  intros HS g. induction l as [|x l IH].
  { cbn [total map zsum]. rewrite Z.mul_0_r, Z.div_0_l by lia. split; [lia|]. intros H. contradiction H. reflexivity. }
  cbn [total map zsum length]. destruct IH as [I1 I2].
  set (d := total deposited l) in *. set (su := total start_unlock l) in *. set (cu := total cliff_unlock l) in *.
  unfold g at 1 3. set (dx := deposited (s_amounts x)) in *. set (sx := start_unlock (s_amounts x)) in *. set (cx := cliff_unlock (s_amounts x)) in *.
  pose proof (floor_split p S (dx - (sx + cx)) (d - (su + cu)) HS) as [F1 F2].
  replace (dx + d - (sx + su + (cx + cu))) with (dx - (sx + cx) + (d - (su + cu))) by lia.
  split; [lia|]. intros _. destruct l as [|y l].
  - subst d su cu. cbn [total map zsum length] in *. rewrite Z.mul_0_r, Z.div_0_l in * by lia.
    rewrite !Z.add_0_r in *. replace (dx - (sx + cx) + (0 - 0)) with (dx - (sx + cx)) by lia. change (Z.of_nat 1) with 1. lia.
  - assert (y :: l <> []) as Hne by (intros X; discriminate X). specialize (I2 Hne).
    rewrite (Nat2Z.inj_succ (length (y :: l))). lia.
Qed.

Lemma split_schedule s l now : stream_ok s -> (forall x, x ∈ l -> stream_ok x) -> split_of s l ->
  zsum (map (fun x => stream_schedule x now) l) <= stream_schedule s now <=
  zsum (map (fun x => stream_schedule x now) l) + (Z.of_nat (length l) - 1).
Proof.
  intros K Kl [Hne Ht Hd Hsu Hcu].
  assert (1 <= Z.of_nat (length l)) as Hlen by (destruct l; [contradiction Hne; reflexivity|cbn [length]; lia]).
  assert (forall f : stream_data -> Z, (forall x, x ∈ l -> stream_schedule x now = f x) ->
    zsum (map (fun x => stream_schedule x now) l) = zsum (map f l)) as Hext.
  { clear. induction l as [|x l IH]; intros f Hf; [reflexivity|]. cbn [map zsum].
    rewrite (Hf x) by constructor. rewrite (IH f); [reflexivity|]. intros y Hy. apply Hf. constructor. exact Hy. }
  assert (forall f : amounts -> Z, zsum (map (fun x => f (s_amounts x)) l) = total f l) as Htot.
  { clear. intros f. induction l as [|x l IH]; [reflexivity|]. cbn [map zsum total]. lia. }
  assert (zsum (map (fun _ : stream_data => 0) l) = 0) as Hz.
  { clear. induction l as [|x l IH]; [reflexivity|]. cbn [map zsum]. lia. }
  unfold stream_schedule at 2 3. unfold schedule. rewrite pow18.
  destruct (Z.ltb_spec now (t_start (s_times s))) as [Hs|Hs].
  { rewrite (Hext (fun _ => 0)); [rewrite Hz; lia|]. intros x Hx. unfold stream_schedule, schedule. rewrite (Ht _ Hx).
    rewrite (proj2 (Z.ltb_lt _ _) Hs). reflexivity. }
  destruct (Z.ltb_spec now (t_cliff (s_times s))) as [Hc|Hc].
  { rewrite (Hext (fun x => start_unlock (s_amounts x))); [rewrite Htot; lia|]. intros x Hx. unfold stream_schedule, schedule.
    rewrite (Ht _ Hx). rewrite (proj2 (Z.ltb_ge _ _) Hs), (proj2 (Z.ltb_lt _ _) Hc). reflexivity. }
  destruct (Z.leb_spec (t_end (s_times s)) now) as [He|He].
  { rewrite (Hext (fun x => deposited (s_amounts x))); [rewrite Htot; lia|]. intros x Hx. unfold stream_schedule, schedule.
    rewrite (Ht _ Hx). rewrite (proj2 (Z.ltb_ge _ _) Hs), (proj2 (Z.ltb_ge _ _) Hc), (proj2 (Z.leb_le _ _) He). reflexivity. }
  set (p := (now - linear_start (t_start (s_times s)) (t_cliff (s_times s))) * SCALING_FACTOR /
    (t_end (s_times s) - linear_start (t_start (s_times s)) (t_cliff (s_times s)))).
  pose proof (floor_split_list p SCALING_FACTOR l sf_pos) as [F1 F2]. cbv beta zeta in F1, F2. specialize (F2 Hne).
  rewrite Hd, Hsu, Hcu in F1, F2.
  rewrite (Hext (fun x => start_unlock (s_amounts x) + cliff_unlock (s_amounts x) +
    p * (deposited (s_amounts x) - (start_unlock (s_amounts x) + cliff_unlock (s_amounts x))) / SCALING_FACTOR)).
  { split; assumption. }
  intros x Hx. unfold stream_schedule, schedule. rewrite pow18, (Ht _ Hx).
  rewrite (proj2 (Z.ltb_ge _ _) Hs), (proj2 (Z.ltb_ge _ _) Hc), (proj2 (Z.leb_gt _ _) He). reflexivity.
Qed.

(** ** Theorems *)
(** The view of the more generous stream never shows less, at the same time or later. *)
Theorem C89_better_terms : forall E w w' k nft s k' nft' s', env_ok E -> reachable E w -> reachable E w' ->
  stream_at E w k nft s -> stream_at E w' k' nft' s' -> better_terms s s' ->
  s_canceled s = false -> s_canceled s' = false -> s_depleted s = false -> s_depleted s' = false ->
  get_current_time w <= get_current_time w' ->
  exists x x', streamed_amount_of E k nft w = Ok x /\ streamed_amount_of E k' nft' w' = Ok x' /\ x <= x'.
Proof.
  intros E w w' k nft s k' nft' s' HE Hr Hr' Hs Hs' T C C' D D' Hnow.
  pose proof (view_at _ _ _ _ _ (reachable_inv _ _ HE Hr) Hs) as V. pose proof (view_at _ _ _ _ _ (reachable_inv _ _ HE Hr') Hs') as V'.
  pose proof (reachable_stream_ok _ _ _ _ HE Hr (proj1 Hs)) as K. pose proof (reachable_stream_ok _ _ _ _ HE Hr' (proj1 Hs')) as K'.
  exists (stream_schedule s (get_current_time w)), (stream_schedule s' (get_current_time w')).
  rewrite (streamed_view _ _ _ _ _ V K), (streamed_view _ _ _ _ _ V' K'). unfold entitled. rewrite C, C', D, D'.
  split; [reflexivity|]. split; [reflexivity|]. apply better_schedule; assumption.
Qed.

(** The parts of a split deposit together show what the undivided one shows at the same time, up to one base unit less for each part but one. *)
Theorem C89_split_views : forall E w w' k nft s parts, env_ok E -> reachable E w -> reachable E w' ->
  stream_at E w k nft s -> s_canceled s = false -> s_depleted s = false ->
  (forall k' nft' s', (k', nft', s') ∈ parts -> stream_at E w' k' nft' s' /\ s_canceled s' = false /\ s_depleted s' = false) ->
  split_of s (map snd parts) -> get_current_time w = get_current_time w' ->
  exists x xs, streamed_amount_of E k nft w = Ok x /\
    Forall2 (fun p y => streamed_amount_of E p.1.1 p.1.2 w' = Ok y) parts xs /\
    zsum xs <= x <= zsum xs + (Z.of_nat (length parts) - 1).
Proof.
  intros E w w' k nft s parts HE Hr Hr' Hs C D Hp Hsp Hnow.
  pose proof (view_at _ _ _ _ _ (reachable_inv _ _ HE Hr) Hs) as V. pose proof (reachable_stream_ok _ _ _ _ HE Hr (proj1 Hs)) as K.
  exists (stream_schedule s (get_current_time w)), (map (fun x => stream_schedule x (get_current_time w)) (map snd parts)).
  rewrite (streamed_view _ _ _ _ _ V K). unfold entitled at 1. rewrite C, D. split; [reflexivity|].
  assert (forall x, x ∈ map snd parts -> stream_ok x) as Kl.
  { intros x Hx. apply elem_of_list_fmap in Hx as ([[k' nft'] s'] & -> & Hin). destruct (Hp _ _ _ Hin) as (Hs' & _).
    exact (reachable_stream_ok _ _ _ _ HE Hr' (proj1 Hs')). }
  split.
  - rewrite map_map. clear Hsp Kl. induction parts as [|[[k' nft'] s'] parts IH]; [constructor|]. cbn [map]. constructor.
    + destruct (Hp k' nft' s' ltac:(constructor)) as (Hs' & C' & D').
      pose proof (view_at _ _ _ _ _ (reachable_inv _ _ HE Hr') Hs') as V'. pose proof (reachable_stream_ok _ _ _ _ HE Hr' (proj1 Hs')) as K'.
      cbn [fst snd]. rewrite (streamed_view _ _ _ _ _ V' K'). unfold entitled. rewrite C', D', Hnow. reflexivity.
    + apply IH. intros k2 nft2 s2 Hin. apply Hp. constructor. exact Hin.
  - pose proof (split_schedule s (map snd parts) (get_current_time w) K Kl Hsp) as H. rewrite map_length in H. exact H.
Qed.

Lemma never_then_not E C k tr w t : never_canceled k tr -> canceled_at E C k tr w t -> False.
Proof.
  intros Hn (ta & wc & sg & a & evs & wc' & tb & Htr & Ha & _). subst tr. apply Forall_app in Hn as [_ Hn].
  apply Forall_cons in Hn as [Hn _]. cbn in Hn. apply Z.eqb_neq in Hn. exact (Hn Ha).
Qed.

(** Over their whole lives: the parts of a split deposit and the undivided one, all withdrawn in full after being canceled at
    the same time [t], have paid the same up to that rounding, which went back to the sender instead; never canceled, exactly the same. *)
Theorem C89_split_whole_life : forall E C tr w k s tr' w' parts t, env_ok E ->
  history E C tr w -> wdat w !! k = Some (DStream s) -> s_depleted s = true -> canceled_at E C k tr w t ->
  history E C tr' w' ->
  (forall k' s', (k', s') ∈ parts -> wdat w' !! k' = Some (DStream s') /\ s_depleted s' = true /\ canceled_at E C k' tr' w' t) ->
  split_of s (map snd parts) ->
  let paid := zsum (map (fun p => withdrawn_from p.1 tr') parts) in
  let back := zsum (map (fun p => refunded_from p.1 tr') parts) in
  paid <= withdrawn_from k tr <= paid + (Z.of_nat (length parts) - 1) /\ paid + back = withdrawn_from k tr + refunded_from k tr.
Proof.
  intros E C tr w k s tr' w' parts t HE Hh Hk Hd Hc Hh' Hp Hsp paid back.
  destruct (C83_settlement _ _ _ _ _ _ HE Hh Hk) as [_ B]. destruct (B _ Hc) as (R & _ & W). apply W in Hd.
  pose proof (reachable_stream_ok _ _ _ _ HE (ex_intro _ tr (history_any _ _ _ _ Hh)) Hk) as K.
  assert (forall x, x ∈ map snd parts -> stream_ok x) as Kl.
  { intros x Hx. apply elem_of_list_fmap in Hx as ([k' s'] & -> & Hin). destruct (Hp _ _ Hin) as (Hk' & _).
    exact (reachable_stream_ok _ _ _ _ HE (ex_intro _ tr' (history_any _ _ _ _ Hh')) Hk'). }
  assert (paid = zsum (map (fun x => stream_schedule x t) (map snd parts)) /\ paid + back = total deposited (map snd parts)) as [P1 P2].
  { subst paid back. clear Hsp Kl. induction parts as [|[k' s'] parts IH]; [split; reflexivity|]. cbn [map zsum total fst snd].
    destruct (Hp k' s' ltac:(constructor)) as (Hk' & Hd' & Hc').
    destruct (C83_settlement _ _ _ _ _ _ HE Hh' Hk') as [_ B']. destruct (B' _ Hc') as (R' & _ & W'). apply W' in Hd'.
    destruct IH as [I1 I2]; [intros k2 s2 Hin; apply Hp; constructor; exact Hin|]. split; lia. }
  pose proof (split_schedule s (map snd parts) t K Kl Hsp) as H. rewrite map_length in H. rewrite (sp_deposit _ _ Hsp) in P2.
  split; lia.
Qed.

Theorem C89_split_never_canceled : forall E C tr w k s tr' w' parts, env_ok E ->
  history E C tr w -> wdat w !! k = Some (DStream s) -> s_depleted s = true -> never_canceled k tr ->
  history E C tr' w' ->
  (forall k' s', (k', s') ∈ parts -> wdat w' !! k' = Some (DStream s') /\ s_depleted s' = true /\ never_canceled k' tr') ->
  split_of s (map snd parts) ->
  zsum (map (fun p => withdrawn_from p.1 tr') parts) = withdrawn_from k tr /\
  refunded_from k tr = 0 /\ (forall p, p ∈ parts -> refunded_from p.1 tr' = 0).
Proof.
  assert (forall E C tr w k s, env_ok E -> history E C tr w -> wdat w !! k = Some (DStream s) -> s_depleted s = true ->
    never_canceled k tr -> withdrawn_from k tr = deposited (s_amounts s) /\ refunded_from k tr = 0) as Hone.
  { intros E C tr w k s HE Hh Hk Hd Hn. destruct (C83_settlement _ _ _ _ _ _ HE Hh Hk) as [[(_ & R & _ & W)|[t X]] _].
    - apply W in Hd. split; [exact Hd|exact R].
    - exfalso. exact (never_then_not _ _ _ _ _ _ Hn X). }
  intros E C tr w k s tr' w' parts HE Hh Hk Hd Hn Hh' Hp Hsp.
  destruct (Hone _ _ _ _ _ _ HE Hh Hk Hd Hn) as [A1 A2]. split; [|split; [exact A2|]].
  - rewrite A1, <- (sp_deposit _ _ Hsp). clear Hsp. induction parts as [|[k' s'] parts IH]; [reflexivity|]. cbn [map zsum total fst snd].
    destruct (Hp k' s' ltac:(constructor)) as (Hk' & Hd' & Hn'). destruct (Hone _ _ _ _ _ _ HE Hh' Hk' Hd' Hn') as [X _].
    rewrite X, IH; [reflexivity|]. intros k2 s2 Hin. apply Hp. constructor. exact Hin.
  - intros [k' s'] Hin. destruct (Hp _ _ Hin) as (Hk' & Hd' & Hn'). exact (proj2 (Hone _ _ _ _ _ _ HE Hh' Hk' Hd' Hn')).
Qed.

(** ** Non-vacuity *)
(** The 3000 of stream 2 split into 1001 (stream 5) and 1999 (stream 6), with the same times; at 1501 all three are canceled, and
    then withdrawn. The whole has streamed 1503, the parts 501 and 1001. *)
Definition part_a : create_dur_args := CreateDurArgs 5 1001 0 1000 0 0 true.
Definition part_b : create_dur_args := CreateDurArgs 6 1999 0 1000 0 0 true.
Definition script_parts : list cmd :=
  [CL [kSender] (LCreateDur (create_for 5) part_a); CL [kSender] (LCreateDur (create_for 6) part_b); CT 1501].
Definition w_parts : world := lit
  (ltac:(let x := eval vm_compute in (lam_of (script E0 script_parts w1)) in exact x))
  (ltac:(let x := eval vm_compute in (dat_of (script E0 script_parts w1)) in exact x))
  (ltac:(let x := eval vm_compute in (wclock (script E0 script_parts w1)) in exact x)).
Definition tr_parts : trace := Eval vm_compute in script_trace E0 script_parts w1.
Lemma parts_stage : stage E0 script_parts w1 tr_parts w_parts.
Proof. apply stage_intro. vm_compute. reflexivity. Qed.
Lemma parts_hist : history E0 forward_clock (tr1 ++ tr_parts) w_parts.
Proof. exact (history_stage _ _ _ _ _ w1_hist parts_stage). Qed.

Definition cancel_n (n : Z) : list cmd := [CL [kSender] (LCancel (cancel_of n))].
Definition w_c2 : world := lit
  (ltac:(let x := eval vm_compute in (lam_of (script E0 (cancel_n 2) w_parts)) in exact x))
  (ltac:(let x := eval vm_compute in (dat_of (script E0 (cancel_n 2) w_parts)) in exact x)) 1501.
Definition tr_c2 : trace := Eval vm_compute in script_trace E0 (cancel_n 2) w_parts.
Lemma c2_stage : stage E0 (cancel_n 2) w_parts tr_c2 w_c2.
Proof. apply stage_intro. vm_compute. reflexivity. Qed.
Definition w_c5 : world := lit
  (ltac:(let x := eval vm_compute in (lam_of (script E0 (cancel_n 5) w_c2)) in exact x))
  (ltac:(let x := eval vm_compute in (dat_of (script E0 (cancel_n 5) w_c2)) in exact x)) 1501.
Definition tr_c5 : trace := Eval vm_compute in script_trace E0 (cancel_n 5) w_c2.
Lemma c5_stage : stage E0 (cancel_n 5) w_c2 tr_c5 w_c5.
Proof. apply stage_intro. vm_compute. reflexivity. Qed.
Definition w_c6 : world := lit
  (ltac:(let x := eval vm_compute in (lam_of (script E0 (cancel_n 6) w_c5)) in exact x))
  (ltac:(let x := eval vm_compute in (dat_of (script E0 (cancel_n 6) w_c5)) in exact x)) 1501.
Definition tr_c6 : trace := Eval vm_compute in script_trace E0 (cancel_n 6) w_c5.
Lemma c6_stage : stage E0 (cancel_n 6) w_c5 tr_c6 w_c6.
Proof. apply stage_intro. vm_compute. reflexivity. Qed.
Definition script_empty : list cmd := map (fun n => CL [kRecipient] (LWithdrawMax (withdraw_to n kRecipient))) [2; 5; 6].
Definition w_empty : world := lit
  (ltac:(let x := eval vm_compute in (lam_of (script E0 script_empty w_c6)) in exact x))
  (ltac:(let x := eval vm_compute in (dat_of (script E0 script_empty w_c6)) in exact x)) 1501.
Definition tr_empty : trace := Eval vm_compute in script_trace E0 script_empty w_c6.
Lemma empty_stage : stage E0 script_empty w_c6 tr_empty w_empty.
Proof. apply stage_intro. vm_compute. reflexivity. Qed.

Lemma run_one_inv E C w a evs w' : run E C w [(a, evs)] w' -> step E C w a evs w'.
Proof.
  intros Hr. remember [(a, evs)] as l eqn:Hl. revert Hl. destruct Hr as [|tr' w1 a' evs' w2 Hr Hst]; intros Hl; [discriminate Hl|].
  destruct tr' as [|x tr']; [|destruct tr'; discriminate Hl]. injection Hl as Ha He. subst a' evs'.
  apply run_nil_inv in Hr. subst w1. exact Hst.
Qed.
Lemma stage_canceled sg a evs tr w w' tr2 wend : history E0 forward_clock tr w ->
  stage E0 [CL sg (LCancel a)] w [(ALockup sg (LCancel a), evs)] w' -> run E0 forward_clock w' tr2 wend ->
  canceled_at E0 forward_clock (xa_stream a) (tr ++ (ALockup sg (LCancel a), evs) :: tr2) wend (get_current_time w).
Proof.
  intros H S R. exists tr, w, sg, a, evs, w', tr2. split; [reflexivity|]. split; [reflexivity|]. split; [exact H|].
  split; [|split; [exact R|reflexivity]]. apply run_one_inv. exact (stage_run _ _ _ _ _ H S).
Qed.

Definition tr_split : trace := tr1 ++ tr_parts ++ tr_c2 ++ tr_c5 ++ tr_c6 ++ tr_empty.
Lemma split_hist : history E0 forward_clock tr_split w_empty /\
  canceled_at E0 forward_clock (kStream kSender 2) tr_split w_empty 1501 /\
  canceled_at E0 forward_clock (kStream kSender 5) tr_split w_empty 1501 /\
  canceled_at E0 forward_clock (kStream kSender 6) tr_split w_empty 1501.
Proof.
  pose proof (history_stage _ _ _ _ _ parts_hist c2_stage) as H2. pose proof (history_stage _ _ _ _ _ H2 c5_stage) as H5.
  pose proof (history_stage _ _ _ _ _ H5 c6_stage) as H6. pose proof (history_stage _ _ _ _ _ H6 empty_stage) as He.
  pose proof (stage_run _ _ _ _ _ H6 empty_stage) as Re.
  pose proof (run_app _ _ _ _ _ _ _ (stage_run _ _ _ _ _ H5 c6_stage) Re) as R6.
  pose proof (run_app _ _ _ _ _ _ _ (stage_run _ _ _ _ _ H2 c5_stage) R6) as R5.
  pose proof (stage_canceled _ _ _ _ _ _ _ _ parts_hist c2_stage R5) as C2.
  pose proof (stage_canceled _ _ _ _ _ _ _ _ H2 c5_stage R6) as C5.
  pose proof (stage_canceled _ _ _ _ _ _ _ _ H5 c6_stage Re) as C6.
  unfold tr_split. rewrite <- !app_assoc in *. split; [exact He|]. split; [exact C2|]. split; [exact C5|exact C6].
Qed.

Example C89_example : exists s a b,
  stream_at E0 w_parts (kStream kSender 2) (kNft kSender 2) s /\
  stream_at E0 w_parts (kStream kSender 5) (kNft kSender 5) a /\ stream_at E0 w_parts (kStream kSender 6) (kNft kSender 6) b /\
  split_of s [a; b] /\ better_terms a s /\
  streamed_amount_of E0 (kStream kSender 2) (kNft kSender 2) w_parts = Ok 1503 /\
  streamed_amount_of E0 (kStream kSender 5) (kNft kSender 5) w_parts = Ok 501 /\
  streamed_amount_of E0 (kStream kSender 6) (kNft kSender 6) w_parts = Ok 1001.
Proof.
  eexists. eexists. eexists. split; [split; [vm_compute; reflexivity|eexists; vm_compute; reflexivity]|].
  split; [split; [vm_compute; reflexivity|eexists; vm_compute; reflexivity]|]. split; [split; [vm_compute; reflexivity|eexists; vm_compute; reflexivity]|].
  split; [split; [intros X; discriminate X| |reflexivity|reflexivity|reflexivity]|].
  { intros x Hx. rewrite elem_of_cons, elem_of_list_singleton in Hx. destruct Hx as [Hx|Hx]; rewrite Hx; reflexivity. }
  split; [split; vm_compute; intros X; discriminate X|]. split; [vm_compute; reflexivity|]. split; vm_compute; reflexivity.
Qed.
Example C89_life_example : exists s a b,
  history E0 forward_clock tr_split w_empty /\ wdat w_empty !! kStream kSender 2 = Some (DStream s) /\ s_depleted s = true /\
  canceled_at E0 forward_clock (kStream kSender 2) tr_split w_empty 1501 /\
  wdat w_empty !! kStream kSender 5 = Some (DStream a) /\ s_depleted a = true /\
  canceled_at E0 forward_clock (kStream kSender 5) tr_split w_empty 1501 /\
  wdat w_empty !! kStream kSender 6 = Some (DStream b) /\ s_depleted b = true /\
  canceled_at E0 forward_clock (kStream kSender 6) tr_split w_empty 1501 /\
  split_of s [a; b] /\
  map (fun n => withdrawn_from (kStream kSender n) tr_split) [2; 5; 6] = [1503; 501; 1001] /\
  map (fun n => refunded_from (kStream kSender n) tr_split) [2; 5; 6] = [1497; 500; 998].
Proof.
  destruct split_hist as (H & C2 & C5 & C6). eexists. eexists. eexists.
  split; [exact H|]. split; [vm_compute; reflexivity|]. split; [reflexivity|]. split; [exact C2|].
  split; [vm_compute; reflexivity|]. split; [reflexivity|]. split; [exact C5|].
  split; [vm_compute; reflexivity|]. split; [reflexivity|]. split; [exact C6|].
  split; [split; [intros X; discriminate X| |reflexivity|reflexivity|reflexivity]|split; vm_compute; reflexivity].
  intros x Hx. rewrite elem_of_cons, elem_of_list_singleton in Hx. destruct Hx as [Hx|Hx]; rewrite Hx; reflexivity.
Qed.

Print Assumptions C89_better_terms.
Print Assumptions C89_split_views.
Print Assumptions C89_split_whole_life.
Print Assumptions C89_split_never_canceled.
