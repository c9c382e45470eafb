(** C55: a campaign that holds enough for all unclaimed entries keeps holding enough, and everyone can claim. *)
From Verif Require Export PropClawback.

(** What the creator took back from campaign [k], as the events report it. *)
Definition clawback_of (k : key) (e : event) : Z :=
  match e with EvClawback amount ck _ _ => if ck =? k then amount else 0 | _ => 0 end.
Definition clawed_back (k : key) (evs : list event) : Z := foldr (fun e acc => clawback_of k e + acc) 0 evs.
(** The entries of the tree whose index was not claimed yet. *)
Definition unclaimed (k : key) (t : mtree) (evs : list event) : list airdrop :=
  List.filter (fun e => bool_decide (e_index e ∉ map e_index (claims_of k evs))) (entries t).
(** [v] is the campaign's own associated account for some token. *)
Definition vault_for (E : env) (w : world) (k v : key) (mint : key) : Prop :=
  exists vt, wdat w !! v = Some (DToken vt) /\ t_owner vt = k /\ t_mint vt = mint /\ ata_address E k mint (t_prog vt) = Ok v.

Lemma paid_split k evs : campaign_paid k evs = sum_amounts (claims_of k evs) + clawed_back k evs.
Proof.
  induction evs as [|e evs IH]; [done|]. unfold claims_of, clawed_back, campaign_paid in *. cbn [foldr flat_map].
  rewrite sum_amounts_app, IH. destruct e; cbn; try lia; destruct (_ =? k); cbn; unfold sum_amounts; cbn; lia.
Qed.
Lemma clawed_back_app k e1 e2 : clawed_back k (e1 ++ e2) = clawed_back k e1 + clawed_back k e2.
Proof. unfold clawed_back. induction e1; simpl; lia. Qed.

Lemma vault_run E C w0 tr w k c v m : env_ok E -> inv E w0 -> run E C w0 tr w -> wdat w0 !! k = Some (DCampaign c) ->
  vault_for E w0 k v m ->
  vault_for E w k v m /\ (plain E m = true -> balance w0 v - campaign_paid k (events tr) <= balance w v).
Proof.
  intros HE Hi0 Hr Hc Hv0. induction Hr as [|tr w a evs w' Hr IH Hst]; [split; [done|intros _; cbn; lia]|].
  destruct IH as [(t & Hv & Ho & Hm & Hat) Hbal]. pose proof (run_inv _ _ _ _ _ HE Hi0 Hr) as Hi.
  destruct (run_campaign (fun _ _ => True) E C w0 c tr w k HE Hi0 Hr Hc I) as (c1 & Hc1 & _); [done|].
  assert (pda_of E PMerkle k = true) as Hpk.
  { pose proof (ci_addr _ _ _ _ (mi_campaign _ _ (inv_merkle _ _ Hi) _ _ Hc1)) as Ha. by apply fpa_pda in Ha as [? _]. }
  rewrite events_app, events_one, campaign_paid_app.
  assert (balance w v = t_amount t) as Hb by (unfold balance; by rewrite Hv).
  assert (forall w2, untouched E PMerkle w w2 -> vault_for E w2 k v m /\ (plain E m = true -> balance w v <= balance w2 v)) as Hunt.
  { intros w2 Hu. rewrite <-Hm in Hat. destruct (u_vault _ _ _ _ Hu _ _ Hv) as (t' & Hv' & Hp' & Hm' & Ho' & Ha'); [by rewrite Ho|by rewrite Ho|].
    split; [exists t'; split_and!; [done|congruence|congruence|by rewrite Hp', <-Hm]|]. intros Hpl. unfold balance. rewrite Hv, Hv'. apply Ha'. by rewrite Hm. }
  pose proof (step_keeps _ _ _ _ _ _ HE (inv_sane _ _ Hi) Hst) as [_ HM _ _].
  destruct Hst as [sg ix evs w' Hsg Hx|sg ix evs w' Hsg Hx|w' Ho' Hcl].
  - destruct (Hunt w' (HM eq_refl)) as [Hv' Hb']. destruct (lockup_no_claims _ _ _ _ _ _ k Hx) as [_ Hp]. split; [done|]. intros Hpl. specialize (Hb' Hpl). specialize (Hbal Hpl). lia.
  - pose proof (merkle_exec_effect _ _ _ _ _ _ Hx) as [_ Heff].
    destruct (merkle_campaign _ _ _ _ _ _ _ _ Heff Hc1) as (c2 & Hc2 & Hch).
    destruct (campaign_change_vault _ _ _ _ _ _ _ _ _ v t HE Hsg Hx Hc1 Hpk Hch Hv Ho) as (Hp0 & t' & Hv' & (S1 & S2 & S3 & S4) & Hle).
    assert (balance w' v = t_amount t') as Hb' by (unfold balance; by rewrite Hv').
    split; [|intros Hpl; specialize (Hbal Hpl); lia]. exists t'. split_and!; [done|congruence|congruence|]. by replace (t_prog t') with (t_prog t) by congruence.
  - destruct (Hunt w' (HM eq_refl)) as [Hv' Hb']. split; [done|]. intros Hpl. specialize (Hb' Hpl). specialize (Hbal Hpl). cbn. lia.
Qed.

(** The vault only loses what is reported as claimed or clawed back. *)
Theorem C55_vault_accounting : forall E w tr w' k c v, env_ok E -> reachable E w -> run E any_clock w tr w' ->
  campaign_view k w = Ok c -> vault_for E w k v (c_mint c) ->
  vault_for E w' k v (c_mint c) /\
  (plain E (c_mint c) = true -> balance w v - sum_amounts (claims_of k (events tr)) - clawed_back k (events tr) <= balance w' v).
Proof.
  intros E w tr w' k c v HE Hr Hrun Hc%load_campaign_ok Hv.
  destruct (vault_run E any_clock w tr w' k c v _ HE (reachable_inv _ _ HE Hr) Hrun Hc Hv) as [H1 H2].
  split; [done|]. intros Hpl. specialize (H2 Hpl). rewrite paid_split in H2. lia.
Qed.

Lemma unclaimed_split k t e1 e2 : (forall e, e ∈ claims_of k e2 -> e ∈ entries t) ->
  NoDup (map e_index (claims_of k (e1 ++ e2))) -> (forall e, e ∈ entries t -> 0 <= e_amount e) ->
  sum_amounts (unclaimed k t (e1 ++ e2)) + sum_amounts (claims_of k e2) <= sum_amounts (unclaimed k t e1).
Proof.
  intros Hin Hnd Hpos. rewrite <-sum_amounts_app. apply sum_submseteq.
  { intros e [He _]%elem_of_list_In%filter_In. apply Hpos. by apply elem_of_list_In. }
  rewrite claims_of_app, map_app in Hnd. apply NoDup_app in Hnd as (_ & Hd & Hn2). apply (NoDup_fmap_1 e_index) in Hn2.
  unfold unclaimed. rewrite claims_of_app, map_app.
  set (I1 := map e_index (claims_of k e1)) in *. set (cl := claims_of k e2) in *.
  assert (forall es, List.filter (fun e => bool_decide (e_index e ∉ I1 ++ map e_index cl)) es =
    List.filter (fun e => bool_decide (e_index e ∉ map e_index cl)) (List.filter (fun e => bool_decide (e_index e ∉ I1)) es)) as ->.
  { induction es as [|e es IH]; [done|]. cbn [List.filter].
    destruct (decide (e_index e ∈ I1)) as [H1|H1].
    - rewrite !bool_decide_false; [done|tauto|]. rewrite elem_of_app. tauto.
    - rewrite (bool_decide_true (e_index e ∉ I1)) by done. cbn [List.filter]. rewrite IH.
      destruct (decide (e_index e ∈ map e_index cl)) as [H2|H2].
      + rewrite !bool_decide_false; [done|tauto|]. rewrite elem_of_app. tauto.
      + rewrite !bool_decide_true; [done|done|]. rewrite elem_of_app. tauto. }
  assert (forall e, e ∈ cl -> e ∈ List.filter (fun e => bool_decide (e_index e ∉ I1)) (entries t)) as Hcl.
  { intros e He. apply elem_of_list_In, filter_In. split; [apply elem_of_list_In; by apply Hin|]. apply bool_decide_eq_true. intros H1.
    apply (Hd _ H1). apply elem_of_list_In, in_map, elem_of_list_In. done. }
  set (es := List.filter (fun e => bool_decide (e_index e ∉ I1)) (entries t)) in *. clearbody es. clear - Hcl Hn2.
  (* the entries split into those whose index is newly claimed, among which are the claims, and the rest *)
  transitivity (List.filter (fun e => bool_decide (e_index e ∉ map e_index cl)) es ++ List.filter (fun e => bool_decide (e_index e ∈ map e_index cl)) es).
  - apply submseteq_app; [done|]. apply NoDup_submseteq; [done|]. intros e He. apply elem_of_list_In, filter_In. split; [by apply elem_of_list_In, Hcl|].
    apply bool_decide_eq_true. apply elem_of_list_In, in_map, elem_of_list_In. done.
  - clear. apply Permutation_submseteq. induction es as [|e es IH]; [done|]. cbn [List.filter].
    destruct (decide (e_index e ∈ map e_index cl)) as [H|H].
    + rewrite (bool_decide_false (e_index e ∉ _)) by tauto. rewrite (bool_decide_true (e_index e ∈ _)) by done.
      etransitivity; [symmetry; apply Permutation_middle|]. by apply perm_skip.
    + rewrite (bool_decide_true (e_index e ∉ _)) by done. rewrite (bool_decide_false (e_index e ∈ _)) by done. cbn [app]. by apply perm_skip.
Qed.

(** If the vault covers the unclaimed entries and the creator takes nothing back, it still covers them whatever happens. *)
Theorem C55_stays_funded : forall E tr w tr' w' k c v t, env_ok E -> history E any_clock tr w -> run E any_clock w tr' w' ->
  campaign_view k w = Ok c -> vault_for E w k v (c_mint c) -> plain E (c_mint c) = true -> hash_ok (keccak E) -> tree_ok t -> c_root c = root (keccak E) t ->
  no_clawback k (events tr') ->
  sum_amounts (unclaimed k t (events tr)) <= balance w v ->
  sum_amounts (unclaimed k t (events (tr ++ tr'))) <= balance w' v \/ trace_collision E tr' k t.
Proof.
  intros E tr w tr' w' k c v t HE Hh Hrun Hc Hv Hpl HH Ht Hroot Hnc Hf.
  assert (reachable E w) as Hr by (by exists tr).
  destruct (C55_vault_accounting E w tr' w' k c v HE Hr Hrun Hc Hv) as [_ Hb]. specialize (Hb Hpl).
  assert (clawed_back k (events tr') = 0) as Hz.
  { clear - Hnc. unfold no_clawback in Hnc. induction (events tr') as [|e l IH]; [done|]. unfold clawed_back in *. cbn [foldr]. rewrite IH.
    - destruct e; cbn; try lia. destruct (Z.eqb_spec campaign k) as [->|]; [|done]. exfalso. eapply Hnc. apply elem_of_cons. by left.
    - intros am cr r Hin. apply (Hnc am cr r). apply elem_of_cons. by right. }
  destruct (run_claims_in_tree E any_clock w tr' w' k c t HE (reachable_inv _ _ HE Hr) Hrun HH Ht (proj1 (load_campaign_ok _ _ _) Hc) Hroot) as [Hin|?]; [|by right].
  left. rewrite events_app.
  assert (history E any_clock (tr ++ tr') w') as Hh'.
  { destruct Hh as (w0 & Hg & Hr0). exists w0. split; [done|]. by eapply run_app. }
  pose proof (C36_once E _ w' k HE Hh') as Hnd. rewrite events_app in Hnd.
  pose proof (unclaimed_split k t (events tr) (events tr') Hin Hnd (fun e He => proj1 (proj2 (proj2 (Ht e He))))) as Hu. lia.
Qed.

(** What a claimer must bring for [e]: like [claim_ready], but nothing is said about the balance of the vault or about
    earlier claims. *)
Record claim_prepared (E : env) (w : world) (sg : list key) (a : claim_accs) (e : airdrop) (fee : Z) (c : campaign) : Prop := {
  lp_signed : la_claimer a ∈ sg;
  lp_campaign : campaign_view (la_campaign a) w = Ok c;
  lp_window : window c (get_current_time w);
  lp_recipient : la_recipient a = e_recipient e;
  lp_receipt : (exists bump, find_program_address E PMerkle (receipt_seeds (la_campaign a) (e_index e)) = Ok (la_receipt a, bump)) /\
    wdat w !! la_receipt a = None;
  lp_mint : la_mint a = c_mint c /\ exists m, wdat w !! la_mint a = Some (DMint m) /\ m_prog m = la_tp a;
  lp_vault : ata_address E (la_campaign a) (la_mint a) (la_tp a) = Ok (la_vault a) /\
    exists t, wdat w !! la_vault a = Some (DToken t) /\ t_owner t = la_campaign a /\ t_mint t = c_mint c /\ t_prog t = la_tp a /\ t_frozen t = false;
  lp_fee : claim_fee_in_lamports E (la_treasury a) (la_chainlink a) (la_feed a) w = Ok fee;
  lp_receipt_lam : 0 <= lam w (la_receipt a);
  lp_dest : can_receive E w (la_claimer a) (la_recipient_ata a) (la_recipient a) (la_mint a) (la_tp a) (e_amount e)
    (Z.max 1 (rent_min E 8) + fee);
  lp_unguarded : guarded E (la_mint a) (la_vault a) (la_recipient_ata a) (wclock w) = false }.

Lemma sum_amounts_elem e es : e ∈ es -> (forall x, x ∈ es -> 0 <= e_amount x) -> e_amount e <= sum_amounts es.
Proof.
  intros He Hp. pose proof (sum_submseteq [e] es Hp) as H. unfold sum_amounts at 1 in H. cbn in H.
  enough (e_amount e + 0 <= sum_amounts es) by lia. apply H. apply NoDup_submseteq; [apply NoDup_singleton|].
  intros x ->%elem_of_list_singleton. done.
Qed.

(** So every entry that was not claimed can be claimed at any time in the window, whatever happened since (unless someone
    exhibits a hash collision). *)
Theorem C55_everyone_can_claim : forall E tr w tr' w' c c' t sg a e fee p, env_ok E -> history E any_clock tr w -> run E any_clock w tr' w' ->
  campaign_view (la_campaign a) w = Ok c -> vault_for E w (la_campaign a) (la_vault a) (c_mint c) -> plain E (c_mint c) = true ->
  hash_ok (keccak E) -> tree_ok t -> c_root c = root (keccak E) t ->
  sum_amounts (unclaimed (la_campaign a) t (events tr)) <= balance w (la_vault a) ->
  no_clawback (la_campaign a) (events tr') ->
  proof_of (keccak E) t e p -> signers_ok E sg ->
  forallb is_key [la_claimer a; la_recipient a; la_recipient_ata a; la_treasury a; la_mint a;
        la_campaign a; la_vault a; la_receipt a; la_chainlink a; la_feed a] = true ->
  claim_prepared E w' sg a e fee c' ->
  trace_collision E tr' (la_campaign a) t \/
  exists w'', merkle_exec E sg (MClaim a (e_index e) (e_amount e) p) w' =
    Ok (w'', [EvClaim (e_amount e) (la_campaign a) (la_claimer a) (la_receipt a) fee (e_index e) (la_recipient a)]).
Proof.
  intros E tr w tr' w' c c' t sg a e fee p HE Hh Hrun Hc Hv Hpl HH Ht Hroot Hf Hnc Hp Hsg Hk [P1 P2 P3 P4 [P5 P5'] P6 [P7 (vt & V1 & V2 & V3 & V4 & V5)] P8 P9 P10 P11].
  destruct (C55_stays_funded E tr w tr' w' _ c (la_vault a) t HE Hh Hrun Hc Hv Hpl HH Ht Hroot Hnc Hf) as [Hb|?]; [|by left]. right.
  assert (history E any_clock (tr ++ tr') w') as Hh'.
  { destruct Hh as (w0 & Hg & Hr0). exists w0. split; [done|]. by eapply run_app. }
  pose proof (proof_of_entry _ _ _ _ Hp) as He.
  assert (e ∈ unclaimed (la_campaign a) t (events (tr ++ tr'))) as Hun.
  { apply elem_of_list_In, filter_In. split; [by apply elem_of_list_In|]. apply bool_decide_eq_true. intros Hin.
    apply claims_index, elem_key_index in Hin as (am & cl & r & fe & rec & Hin).
    destruct (ro_event _ _ _ (history_receipts _ _ _ _ HE Hh') _ _ _ _ _ _ _ Hin) as ((b & Hb') & Hr & _).
    destruct P5 as [b' Hb2]. destruct (fpa_fun _ _ _ _ _ _ _ Hb' Hb2) as [-> _]. discriminate (eq_trans (eq_sym Hr) P5'). }
  assert (e_amount e <= t_amount vt) as Hle.
  { etransitivity; [apply (sum_amounts_elem e _ Hun)|].
    - intros x [Hx _]%elem_of_list_In%filter_In. apply elem_of_list_In in Hx. apply (Ht x Hx).
    - etransitivity; [exact Hb|]. unfold balance. by rewrite V1. }
  assert (c_root c' = root (keccak E) t /\ c_mint c' = c_mint c) as [Hroot' Hmint'].
  { destruct (C43_terms E w w' (la_campaign a) c HE) as (c2 & Hc2 & (_ & Hm2 & Hr2 & _)); [by exists tr|by exists tr'|done|].
    assert (c2 = c') as -> by congruence. split; congruence. }
  apply (C34_claim_succeeds E w' sg a e fee c' t p); try done; [by exists (tr ++ tr')|].
  split; try done.
  - apply has_claimed_inv. split; [by exists c'|]. split; [exact P5|]. split; [discriminate|]. intros Hn. by destruct Hn.
  - split; [exact P7|]. exists vt. split_and!; done.
  - apply plain_allows; [|exact P11]. destruct P6 as [-> _]. by rewrite Hmint'.
Qed.
(** With the clock moving forward, "no clawback" need not be assumed once seven days have passed since the first claim. *)
Theorem C55_guaranteed : forall E tr w tr' w' k c v t, env_ok E -> history E forward_clock tr w -> 0 <= wclock w <= U64_MAX ->
  run E forward_clock w tr' w' ->
  campaign_view k w = Ok c -> vault_for E w k v (c_mint c) -> plain E (c_mint c) = true -> hash_ok (keccak E) -> tree_ok t -> c_root c = root (keccak E) t ->
  grace_over c (get_current_time w) -> ~ expired c (get_current_time w') ->
  sum_amounts (unclaimed k t (events tr)) <= balance w v ->
  sum_amounts (unclaimed k t (events (tr ++ tr'))) <= balance w' v \/ trace_collision E tr' k t.
Proof.
  intros E tr w tr' w' k c v t HE Hh Hw Hrun Hc Hv Hpl HH Ht Hroot Hg Hex Hf. pose proof Hv as (vt & Hv1 & Hv2 & Hv3 & Hv4).
  destruct (C41_protected E w tr' w' k c v vt t HE (conj Hw (ex_intro _ tr Hh)) Hrun Hc Hg Hex Hv1 Hv2) as (Hnc & _).
  { by rewrite Hv3. }
  apply (C55_stays_funded E tr w tr' w' k c v t); try done; [by eapply history_any|by eapply run_any].
Qed.

(** ** Example: after the first claim from the campaign that holds 1000 for its three entries, the third can be claimed. *)
Definition script5a : list cmd :=
  [CT 1800; CM [kOther] (MClaim (claim_by kOther 1500 0 0 kRecipient) 0 500 [leafB; leafC])].
Definition w5a : world := lit
  (ltac:(let x := eval vm_compute in (lam_of (script E0 script5a w5)) in exact x))
  (ltac:(let x := eval vm_compute in (dat_of (script E0 script5a w5)) in exact x))
  (ltac:(let x := eval vm_compute in (wclock (script E0 script5a w5)) in exact x)).
Definition tr_5a : trace := Eval vm_compute in script_trace E0 script5a w5.
Lemma w5a_stage : stage E0 script5a w5 tr_5a w5a.
Proof. apply stage_intro. vm_compute. reflexivity. Qed.
Definition camp5 : campaign := Campaign (c_mint camp6) (c_bump camp6) (c_start camp6) (c_creator camp6) (c_expiration camp6) 0 (c_ipfs camp6) (c_root camp6) (c_name camp6).
Lemma w5_funded : sum_amounts (unclaimed (kCampaign 1500 0) tree3 (events tr5)) = 1000 /\ balance w5 (kCampVault 1500 0) = 1000.
Proof. split; vm_compute; reflexivity. Qed.
Lemma w5a_prepared : claim_prepared E0 w5a [kOther] (claim_by kOther 1500 0 2 kCollector) (Entry 2 kCollector 200) 0 camp6.
Proof.
  split.
  - apply elem_of_list_here.
  - vm_compute. reflexivity.
  - split; [vm_compute; discriminate|left; vm_compute; reflexivity].
  - reflexivity.
  - split; [eexists; vm_compute; reflexivity|vm_compute; reflexivity].
  - split; [vm_compute; reflexivity|]. eexists. split; vm_compute; reflexivity.
  - split; [vm_compute; reflexivity|]. eexists. split; [vm_compute; reflexivity|].
    split; [vm_compute; reflexivity|]. split; [vm_compute; reflexivity|]. split; vm_compute; reflexivity.
  - vm_compute. reflexivity.
  - vm_compute. discriminate.
  - split; [vm_compute; reflexivity|]. right. split; [vm_compute; reflexivity|]. split; [vm_compute; discriminate|]. split; [vm_compute; discriminate|].
    right. split; [vm_compute; reflexivity|]. vm_compute. discriminate.
  - vm_compute. reflexivity.
Qed.
Example C55_example :
  trace_collision E0 tr_5a (kCampaign 1500 0) tree3 \/
  exists w'', merkle_exec E0 [kOther] (MClaim (claim_by kOther 1500 0 2 kCollector) 2 200 [nodeAB]) w5a =
    Ok (w'', [EvClaim 200 (kCampaign 1500 0) kOther (la_receipt (claim_by kOther 1500 0 2 kCollector)) 0 2 kCollector]).
Proof.
  apply (C55_everyone_can_claim E0 tr5 w5 tr_5a w5a camp5 camp6 tree3 [kOther] (claim_by kOther 1500 0 2 kCollector) (Entry 2 kCollector 200) 0 [nodeAB]).
  - exact E0_ok.
  - eapply history_any. exact w5_hist.
  - eapply run_any. exact (stage_run _ _ _ _ _ w5_hist w5a_stage).
  - vm_compute. reflexivity.
  - eexists. split; [vm_compute; reflexivity|]. split; [vm_compute; reflexivity|]. split; vm_compute; reflexivity.
  - vm_compute. reflexivity.
  - exact keccak_hash_ok.
  - exact tree3_ok.
  - symmetry. exact tree3_root.
  - destruct w5_funded as [H1 H2]. etransitivity; [apply Z.eq_le_incl; exact H1|apply Z.eq_le_incl; symmetry; exact H2].
  - intros am cr r Hin. assert (existsb (fun e => match e with EvClawback _ _ _ _ => true | _ => false end) (events tr_5a) = false) as Hno
      by (vm_compute; reflexivity).
    apply (Bool.eq_true_false_abs _ (proj2 (existsb_exists _ _) (ex_intro _ _ (conj (proj1 (elem_of_list_In _ _) Hin) eq_refl))) Hno).
  - exact tree3_proof2.
  - intros k ->%elem_of_list_singleton. split; vm_compute; reflexivity.
  - vm_compute. reflexivity.
  - exact w5a_prepared.
Qed.

Print Assumptions C55_vault_accounting.
Print Assumptions C55_stays_funded.
Print Assumptions C55_everyone_can_claim.
Print Assumptions C55_guaranteed.
