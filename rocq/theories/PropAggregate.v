(** C52: all streams together are covered by what their vaults hold. *)
From Verif Require Export PropHistory.

Definition map_sum (f : key -> adata -> Z) (D : gmap key adata) : Z := map_fold (fun k d acc => f k d + acc) 0 D.
Definition list_sum (f : key -> adata -> Z) (l : list (key * adata)) : Z := foldr (fun kd acc => f kd.1 kd.2 + acc) 0 l.

Lemma map_sum_list f D : map_sum f D = list_sum f (map_to_list D).
Proof. unfold map_sum, list_sum, map_fold, compose. induction (map_to_list D) as [|[k d] l IH]; [done|]. cbn. by rewrite IH. Qed.
Lemma list_sum_perm f l l' : l ≡ₚ l' -> list_sum f l = list_sum f l'.
Proof. induction 1; cbn; unfold list_sum in *; cbn; lia. Qed.
Lemma list_sum_app f l l' : list_sum f (l ++ l') = list_sum f l + list_sum f l'.
Proof. induction l as [|kd l IH]; cbn; [done|]. unfold list_sum in *. cbn. lia. Qed.
Lemma list_sum_nonneg f l : (forall k d, (k, d) ∈ l -> 0 <= f k d) -> 0 <= list_sum f l.
Proof.
  induction l as [|[k d] l IH]; cbn; [done|]. intros H. pose proof (H k d ltac:(left)).
  assert (0 <= list_sum f l) by (apply IH; intros ? ? ?; apply H; by right). unfold list_sum in *. cbn. lia.
Qed.
Lemma list_sum_sub f l l' : NoDup l -> (forall x, x ∈ l -> x ∈ l') -> (forall k d, (k, d) ∈ l' -> 0 <= f k d) -> list_sum f l <= list_sum f l'.
Proof.
  intros Hnd Hsub Hpos. destruct (submseteq_Permutation l l') as [r Hr]; [by apply NoDup_submseteq|].
  rewrite (list_sum_perm f l' _ Hr), list_sum_app.
  assert (0 <= list_sum f r); [|lia]. apply list_sum_nonneg. intros k d Hin. apply Hpos. rewrite Hr. apply elem_of_app. by right.
Qed.
Lemma sum_injection (R : key -> key -> Prop) f g D :
  (forall k d, D !! k = Some d -> 0 <= g k d) ->
  (forall k d, D !! k = Some d -> 0 < f k d -> exists v e, D !! v = Some e /\ R k v /\ f k d <= g v e) ->
  (forall k k' v, R k v -> R k' v -> k = k') ->
  map_sum f D <= map_sum g D.
Proof.
  intros Hpos Hex Hinj. rewrite !map_sum_list.
  assert (forall l : list (key * adata), NoDup (l.*1) -> (forall k d, (k, d) ∈ l -> D !! k = Some d) ->
    exists vs, NoDup vs /\ (forall v e, (v, e) ∈ vs -> D !! v = Some e /\ exists k, k ∈ l.*1 /\ R k v) /\ list_sum f l <= list_sum g vs) as H.
  { induction l as [|[k d] l IH]; intros Hnd Hin.
    - exists []. split; [constructor|]. split; [intros ? ? Hv; by apply elem_of_nil in Hv|done].
    - cbn in Hnd. apply NoDup_cons in Hnd as [Hk Hnd]. destruct IH as (vs & V1 & V2 & V3); [done|intros ? ? ?; apply Hin; by right|].
      destruct (decide (0 < f k d)) as [Hf|Hf].
      + destruct (Hex k d (Hin k d ltac:(left)) Hf) as (v & e & Hv & HR & Hle). exists ((v, e) :: vs). split; [|split].
        * constructor; [|done]. intros Hin'. destruct (V2 _ _ Hin') as (_ & k' & Hk' & HR'). by rewrite (Hinj _ _ _ HR HR') in Hk.
        * intros v' e' [[= -> ->]|Hin']%elem_of_cons; [split; [done|]; exists k; split; [left|done]|].
          destruct (V2 _ _ Hin') as (? & k' & ? & ?). split; [done|]. exists k'. split; [by right|done].
        * unfold list_sum in *. cbn. lia.
      + exists vs. split; [done|]. split.
        * intros v' e' Hin'. destruct (V2 _ _ Hin') as (? & k' & ? & ?). split; [done|]. exists k'. split; [by right|done].
        * unfold list_sum in *. cbn. lia. }
  destruct (H (map_to_list D)) as (vs & V1 & V2 & V3).
  - apply NoDup_fst_map_to_list.
  - intros k d. apply elem_of_map_to_list.
  - etransitivity; [exact V3|]. apply list_sum_sub; [done| |].
    + intros [v e] Hv. apply elem_of_map_to_list. by apply (V2 v e).
    + intros k d Hkd. apply elem_of_map_to_list in Hkd. by apply Hpos.
Qed.
Lemma map_sum_le f g D : (forall k d, D !! k = Some d -> f k d <= g k d) -> map_sum f D <= map_sum g D.
Proof.
  intros H. rewrite !map_sum_list. assert (forall k d, (k, d) ∈ map_to_list D -> f k d <= g k d) as H' by (intros k d ?%elem_of_map_to_list; by apply H).
  clear H. induction (map_to_list D) as [|[k d] l IH]; [done|]. unfold list_sum in *. cbn.
  pose proof (H' k d ltac:(left)). assert (forall k d, (k, d) ∈ l -> f k d <= g k d) as H2 by (intros; apply H'; by right). specialize (IH H2). lia.
Qed.

(** What the streams of token [m] still owe to recipients and senders. *)
Definition owed_by (m : key) (d : adata) : Z :=
  match d with
  | DStream s => if s_mint s =? m then deposited (s_amounts s) - withdrawn (s_amounts s) - refunded (s_amounts s) else 0
  | _ => 0
  end.
Definition owed (w : world) (m : key) : Z := map_fold (fun _ d acc => owed_by m d + acc) 0 (wdat w).
(** What token accounts of [m] owned by stream accounts hold. *)
Definition held_by (D : gmap key adata) (m : key) (d : adata) : Z :=
  match d with
  | DToken t => match D !! t_owner t with Some (DStream _) => balance_of m d | _ => 0 end
  | _ => 0
  end.
Definition held (w : world) (m : key) : Z := map_fold (fun _ d acc => held_by (wdat w) m d + acc) 0 (wdat w).

Theorem C52_all_streams_covered : forall E w m,
  env_ok E -> reachable E w -> plain E m = true -> owed w m <= held w m <= total_balance w m.
Proof.
  intros E w m HE Hr Hpl. pose proof (reachable_inv _ _ HE Hr) as Hi.
  assert (forall k d, wdat w !! k = Some d -> 0 <= balance_of m d) as Hnn.
  { intros k d Hk. destruct d; cbn; try done. destruct (_ =? _); [|done]. by apply (ts_range _ _ (inv_sane _ _ Hi) k). }
  split.
  - apply (sum_injection (fun k v => exists t, wdat w !! v = Some (DToken t) /\ t_owner t = k) (fun _ d => owed_by m d) (fun _ d => held_by (wdat w) m d)).
    + intros k d Hk. pose proof (Hnn k d Hk) as Hp. destruct d; cbn [held_by]; try done. destruct (wdat w !! t_owner _) as [[]|]; done.
    + intros k d Hk Hpos. destruct d; cbn in Hpos; try lia. destruct (Z.eqb_spec (s_mint s) m) as [<-|]; [|lia].
      destruct (C08_solvent E w k s HE Hr Hk) as (v & (t & Hv & Ho & Hm & _) & Hge). specialize (Hge Hpl). exists v, (DToken t). split; [done|]. split; [by exists t|].
      cbn. rewrite Ho, Hk, Hm, !Z.eqb_refl. unfold balance in Hge. by rewrite Hv in Hge.
    + intros k k' v (t & Hv & <-) (t' & Hv' & <-). rewrite Hv in Hv'. by injection Hv' as ->.
  - apply (map_sum_le (fun _ d => held_by (wdat w) m d) (fun _ d => balance_of m d)). intros k d Hk. pose proof (Hnn k d Hk) as Hp.
    destruct d; cbn [held_by]; try done. destruct (wdat w !! t_owner _) as [[]|]; done.
Qed.
(** No stream owes a negative amount, so no stream's debt is hidden behind another's surplus. *)
Theorem C52_no_negative_debt : forall E w m k d,
  env_ok E -> reachable E w -> wdat w !! k = Some d -> 0 <= owed_by m d.
Proof.
  intros E w m k d HE Hr Hk. destruct d; cbn; try done. destruct (_ =? _); [|done].
  pose proof (so_budget _ (reachable_stream_ok _ _ _ _ HE Hr Hk)). lia.
Qed.

Example C52_example : reachable E0 w3 /\ plain E0 kToken = true /\ owed w3 kToken = 3425 /\ held w3 kToken = 3425.
Proof. split; [eapply history_reach, w3_hist|]. split; [vm_compute; reflexivity|]. split; vm_compute; reflexivity. Qed.

Print Assumptions C52_all_streams_covered.
Print Assumptions C52_no_negative_debt.
