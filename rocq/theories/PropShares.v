(** C84: what a campaign pays, and to whom, depends on the set of the claimed entries and on nothing else. *)
From Verif Require Export PropFunded PropLog.
From Verif Require Import Lockup.

(** ** Who gets what *)
(** The sum of the amounts that a list of entries gives to [r]. *)
Definition share (r : key) (es : list airdrop) : Z := sum_amounts (List.filter (fun e => e_recipient e =? r) es).
(** The positions claimed in a history. *)
Definition claimed (k : key) (tr : trace) : list Z := map e_index (claims_of k (events tr)).
(** The entries of the tree at these positions. *)
Definition claimed_entries (k : key) (tr : trace) (t : mtree) : list airdrop :=
  List.filter (fun e => bool_decide (e_index e ∈ claimed k tr)) (entries t).

Lemma perm_sum l1 l2 : l1 ≡ₚ l2 -> sum_amounts l1 = sum_amounts l2.
Proof. unfold sum_amounts. induction 1; cbn; lia. Qed.
Lemma perm_filter (f : airdrop -> bool) l1 l2 : l1 ≡ₚ l2 -> List.filter f l1 ≡ₚ List.filter f l2.
Proof.
  induction 1 as [|x l l' _ IH|x y l|l l' l'' _ IH1 _ IH2]; cbn.
  - reflexivity.
  - destruct (f x); [apply perm_skip; exact IH|exact IH].
  - destruct (f x), (f y); try reflexivity. apply perm_swap.
  - etransitivity; [exact IH1|exact IH2].
Qed.
Lemma nodup_map_inj (l : list airdrop) x y : NoDup (map e_index l) -> x ∈ l -> y ∈ l -> e_index x = e_index y -> x = y.
Proof.
  induction l as [|z l IH]; intros Hn Hx Hy Heq; [by apply elem_of_nil in Hx|].
  cbn in Hn. apply NoDup_cons in Hn as [Hz Hn].
  apply elem_of_cons in Hx as [Hx|Hx]; apply elem_of_cons in Hy as [Hy|Hy].
  - congruence.
  - exfalso. apply Hz. subst x. rewrite Heq. apply elem_of_list_In, in_map, elem_of_list_In. exact Hy.
  - exfalso. apply Hz. subst y. rewrite <- Heq. apply elem_of_list_In, in_map, elem_of_list_In. exact Hx.
  - apply IH; assumption.
Qed.
Lemma nodup_of_map (l : list airdrop) : NoDup (map e_index l) -> NoDup l.
Proof.
  induction l as [|z l IH]; intros Hn; [constructor|]. cbn in Hn. apply NoDup_cons in Hn as [Hz Hn]. apply NoDup_cons. split; [|apply IH; exact Hn].
  intros Hin. apply Hz. apply elem_of_list_In, in_map, elem_of_list_In. exact Hin.
Qed.
Lemma elem_filter (f : airdrop -> bool) l x : x ∈ List.filter f l <-> x ∈ l /\ f x = true.
Proof. rewrite !elem_of_list_In. apply filter_In. Qed.
Lemma nodup_filter (f : airdrop -> bool) l : NoDup l -> NoDup (List.filter f l).
Proof.
  intros Hn. induction Hn as [|x l Hx _ IH]; cbn; [constructor|]. destruct (f x); [|exact IH].
  apply NoDup_cons. split; [|exact IH]. intros Hin%elem_filter. apply Hx, Hin.
Qed.

(** ** The claims of a campaign are the claimed entries of its tree, each once *)
Theorem C84_claims_are_entries : forall E tr w k c t, env_ok E -> history E any_clock tr w -> hash_ok (keccak E) -> tree_ok t ->
  NoDup (map e_index (entries t)) -> campaign_view k w = Ok c -> c_root c = root (keccak E) t ->
  claims_of k (events tr) ≡ₚ claimed_entries k tr t \/ trace_collision E tr k t.
Proof.
  intros E tr w k c t HE Hh HH Ht Hnd Hc Hroot.
  destruct (C38_claims_bounded _ _ _ _ _ _ HE Hh HH Ht Hc Hroot) as [(Hn & Hin & _)|Hco]; [left|right; exact Hco].
  apply NoDup_Permutation.
  - apply nodup_of_map. exact Hn.
  - apply nodup_filter, nodup_of_map. exact Hnd.
  - intros e. unfold claimed_entries. rewrite elem_filter, bool_decide_eq_true. split.
    + intros He. split; [apply Hin; exact He|]. unfold claimed. apply elem_of_list_In, in_map, elem_of_list_In. exact He.
    + intros [He Hi]. unfold claimed in Hi. apply elem_of_list_In, in_map_iff in Hi as (e' & Heq & He'). apply elem_of_list_In in He'.
      rewrite (nodup_map_inj (entries t) e e'); [exact He'|exact Hnd|exact He|apply Hin; exact He'|congruence].
Qed.

(** Every recipient has got exactly the amounts of his claimed entries, and never more than the tree gives him; *)
Theorem C84_shares : forall E tr w k c t r, env_ok E -> history E any_clock tr w -> hash_ok (keccak E) -> tree_ok t ->
  NoDup (map e_index (entries t)) -> campaign_view k w = Ok c -> c_root c = root (keccak E) t ->
  (share r (claims_of k (events tr)) = share r (claimed_entries k tr t) /\
   share r (claims_of k (events tr)) <= share r (entries t) /\
   (* all of it once his entries are claimed. *)
   ((forall e, e ∈ entries t -> e_recipient e = r -> e_index e ∈ claimed k tr) ->
      share r (claims_of k (events tr)) = share r (entries t))) \/ trace_collision E tr k t.
Proof.
  intros E tr w k c t r HE Hh HH Ht Hnd Hc Hroot.
  destruct (C84_claims_are_entries _ _ _ _ _ _ HE Hh HH Ht Hnd Hc Hroot) as [Hp|Hco]; [left|right; exact Hco].
  assert (share r (claims_of k (events tr)) = share r (claimed_entries k tr t)) as Hs by (apply perm_sum, perm_filter; exact Hp).
  rewrite Hs. split; [reflexivity|]. unfold share, claimed_entries. clear Hs Hp. split.
  - assert (forall l, (forall e, e ∈ l -> 0 <= e_amount e) ->
      sum_amounts (List.filter (fun e => e_recipient e =? r) (List.filter (fun e => bool_decide (e_index e ∈ claimed k tr)) l)) <=
      sum_amounts (List.filter (fun e => e_recipient e =? r) l)) as Hl.
    { intros l. induction l as [|x l IH]; intros Hpos; cbn; [unfold sum_amounts; cbn; lia|].
      specialize (IH (fun e He => Hpos e (proj2 (elem_of_cons l e x) (or_intror He)))).
      assert (0 <= e_amount x) by (apply Hpos; left).
      destruct (bool_decide (e_index x ∈ claimed k tr)); cbn; destruct (e_recipient x =? r); unfold sum_amounts in *; cbn in *; lia. }
    apply Hl. intros e He. destruct (Ht e He) as (_ & _ & ? & _). assumption.
  - intros Hall. revert Hall. generalize (entries t). intros l. induction l as [|x l IH]; intros Hall; cbn; [reflexivity|].
    specialize (IH (fun e He => Hall e (proj2 (elem_of_cons l e x) (or_intror He)))).
    destruct (bool_decide (e_index x ∈ claimed k tr)) eqn:Hb; cbn; destruct (e_recipient x =? r) eqn:Hr; unfold sum_amounts in *; cbn in *; try lia.
    apply bool_decide_eq_false in Hb. exfalso. apply Hb, Hall; [left|apply Z.eqb_eq; exact Hr].
Qed.

(** So what a recipient has got does not depend on who claimed, when, in which order or to what end: two histories of
    campaigns with the same tree in which the same positions are claimed have paid the same to everybody. *)
Theorem C84_order_does_not_matter : forall E tr1 w1 k1 c1 tr2 w2 k2 c2 t r, env_ok E -> hash_ok (keccak E) -> tree_ok t ->
  NoDup (map e_index (entries t)) ->
  history E any_clock tr1 w1 -> campaign_view k1 w1 = Ok c1 -> c_root c1 = root (keccak E) t ->
  history E any_clock tr2 w2 -> campaign_view k2 w2 = Ok c2 -> c_root c2 = root (keccak E) t ->
  (forall i, i ∈ claimed k1 tr1 <-> i ∈ claimed k2 tr2) ->
  (share r (claims_of k1 (events tr1)) = share r (claims_of k2 (events tr2)) /\
   sum_amounts (claims_of k1 (events tr1)) = sum_amounts (claims_of k2 (events tr2))) \/
  trace_collision E tr1 k1 t \/ trace_collision E tr2 k2 t.
Proof.
  intros E tr1 w1 k1 c1 tr2 w2 k2 c2 t r HE HH Ht Hnd H1 C1 R1 H2 C2 R2 Hiff.
  destruct (C84_claims_are_entries _ _ _ _ _ _ HE H1 HH Ht Hnd C1 R1) as [P1|Hco]; [|right; left; exact Hco].
  destruct (C84_claims_are_entries _ _ _ _ _ _ HE H2 HH Ht Hnd C2 R2) as [P2|Hco]; [|right; right; exact Hco].
  left. assert (claimed_entries k1 tr1 t = claimed_entries k2 tr2 t) as Heq.
  { unfold claimed_entries. apply filter_ext. intros e. apply bool_decide_ext, Hiff. }
  rewrite Heq in P1. assert (claims_of k1 (events tr1) ≡ₚ claims_of k2 (events tr2)) as Hp by (etransitivity; [exact P1|symmetry; exact P2]).
  split; [apply perm_sum, perm_filter; exact Hp|apply perm_sum; exact Hp].
Qed.

(** ** Non-vacuity *)
Example C84_example : history E0 any_clock tr7 w7 /\ hash_ok (keccak E0) /\ tree_ok tree3 /\ NoDup (map e_index (entries tree3)) /\
  campaign_view (kCampaign 1500 0) w7 = Ok camp6 /\ c_root camp6 = root (keccak E0) tree3 /\
  claimed (kCampaign 1500 0) tr7 = [0; 2] /\ share kRecipient (claims_of (kCampaign 1500 0) (events tr7)) = 500 /\
  share kRecipient (entries tree3) = 500 /\ share kCollector (claims_of (kCampaign 1500 0) (events tr7)) = 200.
Proof.
  split; [eapply history_any; exact w7_hist|]. split; [exact keccak_hash_ok|]. split; [exact tree3_ok|]. split; [apply (bool_decide_unpack _); vm_compute; exact I|].
  split; [exact w7_campaign|]. split; [symmetry; exact tree3_root|]. split; [vm_compute; reflexivity|]. split; [vm_compute; reflexivity|].
  split; vm_compute; reflexivity.
Qed.

(** The hypotheses of the comparison, met by two different histories: positions 0 and 2 claimed by one at 1800 and by two
    others at 1000000, and both, in the other order, by one at 1900. *)
Definition other_order : list cmd :=
  [CT 1900; CM [kOther] (MClaim (claim_by kOther 1500 0 2 kCollector) 2 200 [nodeAB]);
   CM [kOther] (MClaim (claim_by kOther 1500 0 0 kRecipient) 0 500 [leafB; leafC])].
Example C84_example_comparison : exists trb wb c,
  history E0 any_clock tr7 w7 /\ history E0 any_clock trb wb /\
  campaign_view (kCampaign 1500 0) w7 = Ok camp6 /\ campaign_view (kCampaign 1500 0) wb = Ok c /\
  c_root camp6 = root (keccak E0) tree3 /\ c_root c = root (keccak E0) tree3 /\
  claimed (kCampaign 1500 0) tr7 = [0; 2] /\ claimed (kCampaign 1500 0) trb = [2; 0] /\
  (forall i, i ∈ claimed (kCampaign 1500 0) tr7 <-> i ∈ claimed (kCampaign 1500 0) trb).
Proof.
  assert (script_ok E0 other_order w5 = true) as Hok by (vm_compute; reflexivity).
  pose proof (history_script other_order tr5 w5 w5_hist Hok) as Hb.
  assert (claimed (kCampaign 1500 0) tr7 = [0; 2]) as H7 by (vm_compute; reflexivity).
  assert (claimed (kCampaign 1500 0) (tr5 ++ script_trace E0 other_order w5) = [2; 0]) as H8 by (vm_compute; reflexivity).
  assert (exists c, campaign_view (kCampaign 1500 0) (script E0 other_order w5) = Ok c /\ c_root c = c_root camp6) as (c & Hc & Hr).
  { eexists. split; vm_compute; reflexivity. }
  exists (tr5 ++ script_trace E0 other_order w5), (script E0 other_order w5), c.
  split; [eapply history_any; exact w7_hist|]. split; [eapply history_any; exact Hb|].
  split; [exact w7_campaign|]. split; [exact Hc|]. split; [symmetry; exact tree3_root|]. split; [rewrite Hr; symmetry; exact tree3_root|].
  split; [exact H7|]. split; [exact H8|]. rewrite H7, H8. intros i. rewrite !elem_of_cons. tauto.
Qed.

Print Assumptions C84_claims_are_entries.
Print Assumptions C84_shares.
Print Assumptions C84_order_does_not_matter.
