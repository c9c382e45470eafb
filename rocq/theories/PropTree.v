(** C34, C35: who is in the tree can prove it, nobody else can. *)
From Verif Require Export TreeSpec PropConserve.

(** ** The program's check against the specification *)
Definition is_hash32 (b : bytes) : Prop := length b = 32%nat /\ Forall (fun b => 0 <= b < 256) b.
Lemma is_hash_32 b : is_hash b = true <-> is_hash32 b.
Proof.
  unfold is_hash, is_hash32. rewrite andb_true_iff, Z.eqb_eq, forallb_forall, Forall_forall. split.
  - intros [? Hb]. split; [lia|]. intros x Hx. apply elem_of_list_In, Hb in Hx. unfold is_byte in Hx. lia.
  - intros [? Hb]. split; [lia|]. intros x Hx. apply elem_of_list_In, Hb in Hx. unfold is_byte. lia.
Qed.
Lemma is_hash_proof p : forallb is_hash p = true <-> Forall is_hash32 p.
Proof.
  rewrite forallb_forall, Forall_forall. split; intros Hp x Hx.
  - apply is_hash_32, Hp. by apply elem_of_list_In.
  - apply is_hash_32, Hp. by apply elem_of_list_In.
Qed.
Lemma bytes_leb_val x y : length x = length y -> Forall (fun b => 0 <= b < 256) x -> Forall (fun b => 0 <= b < 256) y ->
  bytes_leb x y = (hash_val x <=? hash_val y).
Proof.
  intros Hl Hx. revert y Hl. induction Hx as [|a x Ha Hx IH]; intros [|b y] Hl Hy; try done.
  injection Hl as Hl. apply Forall_cons in Hy as [Hb Hy]. cbn [bytes_leb]. rewrite (IH y) by done.
  rewrite !hash_val_cons, Hl. pose proof (hash_val_bound _ Hx) as Bx. pose proof (hash_val_bound _ Hy) as By. rewrite Hl in Bx.
  destruct (Z.ltb_spec a b), (Z.eqb_spec a b), (Z.leb_spec (hash_val x) (hash_val y)); simpl; symmetry;
    rewrite ?Z.leb_le, ?Z.leb_gt; nia.
Qed.
Lemma merkle_step_pair E x y : is_hash32 x -> is_hash32 y -> merkle_step E x y = keccak E (sorted_pair x y).
Proof.
  intros [Lx Fx] [Ly Fy]. unfold merkle_step, sorted_pair. rewrite bytes_leb_val by congruence. by destruct (_ <=? _).
Qed.
Lemma merkle_loop_climb E x p : hash_ok (keccak E) -> Forall is_hash32 p ->
  merkle_loop E (keccak E x) p = climb_end (keccak E) (keccak E x) p.
Proof.
  intros HH Hp. induction p as [|s p IH] using rev_ind; [done|]. apply Forall_app in Hp as [Hp [Hs _]%Forall_cons].
  rewrite climb_end_app. unfold merkle_loop. rewrite fold_left_app. cbn [fold_left].
  change (fold_left (merkle_step E) p (keccak E x)) with (merkle_loop E (keccak E x) p). rewrite IH by done.
  apply merkle_step_pair; [by apply climb_end_hash|].
  exact Hs.
Qed.
Lemma check_claim_iff E now amount start exp index p rt r :
  check_claim E now amount start exp index p rt r = Ok tt <->
  start <= now /\ ~ (0 < exp <= now) /\ merkle_loop E (leaf_hash E index r amount) p = rt.
Proof.
  unfold check_claim, has_campaign_started, has_expired, bytes_eqb.
  destruct (Z.leb_spec start now); simpl; [|split; [done|lia]].
  destruct (Z.ltb_spec 0 exp); simpl.
  - destruct (Z.leb_spec exp now); simpl; [split; [done|lia]|]. case_bool_decide; simpl; split; try done; [intros _; split_and!; [done|lia|done]|tauto].
  - case_bool_decide; simpl; split; try done; [intros _; split_and!; [done|lia|done]|tauto].
Qed.

(** ** C34 *)

(** The entry's proof climbs to the root of its tree. *)
Lemma proof_climbs H t e p : hash_ok H -> proof_of H t e p -> climb_end H (H (H (entry_bytes e))) p = root H t.
Proof.
  intros HH Hp. induction Hp as [e|l r e p Hp IH|l r e p Hp IH]; [done| |]; rewrite climb_end_app, IH; simpl; [done|].
  f_equal. destruct (root_hash H l HH), (root_hash H r HH). apply sorted_pair_comm; congruence.
Qed.

Theorem C34_check_accepts : forall E t e p now start exp, hash_ok (keccak E) ->
  proof_of (keccak E) t e p -> start <= now -> ~ (0 < exp <= now) ->
  check_claim E now (e_amount e) start exp (e_index e) p (root (keccak E) t) (e_recipient e) = Ok tt.
Proof.
  intros E t e p now start exp HH Hp Hs He. apply check_claim_iff. split_and!; [done|done|].
  unfold leaf_hash. change (le_bytes 4 (e_index e) ++ key_bytes (e_recipient e) ++ le_bytes 8 (e_amount e)) with (entry_bytes e).
  rewrite merkle_loop_climb; [by apply proof_climbs|done|]. by apply (proof_of_hashes (keccak E) t e).
Qed.
(** Every entry has a proof, at most as long as the tree is high. *)
Theorem C34_has_proof : forall H t e, e ∈ entries t -> exists p, proof_of H t e p /\ (length p <= height t)%nat.
Proof. intros H t e [p Hp]%(proof_exists H). exists p. split; [done|]. by apply (proof_of_length H t e). Qed.

(** ** C35 *)
Lemma entry_bytes_inj e e' : entry_ok e -> entry_ok e' -> entry_bytes e = entry_bytes e' -> e = e'.
Proof.
  intros (I & R & A) (I' & R' & A') He. unfold entry_bytes in He.
  apply app_inj_len in He as [H1 He]; [|by rewrite !le_bytes_length].
  apply app_inj_len in He as [H2 H3]; [|by rewrite !key_bytes_length].
  destruct e, e'; simpl in *. f_equal; [by apply le4_inj|by apply key_bytes_inj|by apply le8_inj].
Qed.

Lemma climb_sound H e : hash_ok H -> entry_ok e -> forall t p, tree_ok t -> Forall is_hash32 p ->
  climb_end H (H (H (entry_bytes e))) p = root H t -> proof_of H t e p \/ collision H t e p.
Proof.
  intros HH He. induction t as [e'|l IHl r IHr]; intros p Ht Hp Hc; destruct p as [|s p _] using rev_ind.
  - simpl in Hc. destruct (decide (H (entry_bytes e) = H (entry_bytes e'))) as [Heq|Hne].
    + destruct (decide (entry_bytes e = entry_bytes e')) as [Heq'|Hne].
      * left. apply entry_bytes_inj in Heq' as <-; [constructor|done|]. apply Ht. by apply elem_of_list_singleton.
      * right. exists (entry_bytes e'), (entry_bytes e). unfold claim_strings. simpl. split_and!; [set_solver|set_solver|done|done].
    + right. exists (H (entry_bytes e')), (H (entry_bytes e)). unfold claim_strings. simpl. split_and!; [set_solver|set_solver|done|done].
  - right. rewrite climb_end_app in Hc. simpl in Hc. apply Forall_app in Hp as [_ [[Hs _] _]%Forall_cons].
    exists (H (entry_bytes e')), (sorted_pair (climb_end H (H (H (entry_bytes e))) p) s). unfold claim_strings. rewrite climb_app.
    split_and!; [set_solver|set_solver| |done].
    intros Heq. apply (f_equal length) in Heq. rewrite sorted_pair_length, Hs, (proj1 (HH (entry_bytes e'))), (proj1 (climb_end_hash H _ p HH)) in Heq. lia.
  - right. simpl in Hc. exists (sorted_pair (root H l) (root H r)), (H (entry_bytes e)). unfold claim_strings. simpl.
    split_and!; [set_solver|set_solver| |done].
    intros Heq. apply (f_equal length) in Heq.
    rewrite sorted_pair_length, (proj1 (HH (entry_bytes e))), (proj1 (root_hash H l HH)), (proj1 (root_hash H r HH)) in Heq. lia.
  - apply Forall_app in Hp as [Hp [[Hs _] _]%Forall_cons].
    set (h := climb_end H (H (H (entry_bytes e))) p) in *.
    assert (length h = 32%nat) as Hh by apply (climb_end_hash H _ p HH).
    rewrite climb_end_app in Hc. fold h in Hc. simpl in Hc.
    destruct (decide (sorted_pair h s = sorted_pair (root H l) (root H r))) as [Heq|Hne].
    + assert (forall x, x ∈ claim_strings H e p -> x ∈ claim_strings H e (p ++ [s])) as Hsub.
      { intros x. unfold claim_strings. rewrite climb_app. set_solver. }
      destruct (sorted_pair_inj _ _ _ _ Hh Hs (proj1 (root_hash H l HH)) (proj1 (root_hash H r HH)) Heq) as [[Hhl ->]|[Hhr ->]].
      * destruct (IHl p) as [?|(x & y & Hx & Hy & Hxy)]; [|done|exact Hhl|left; by constructor|].
        { intros x Hx. apply Ht. simpl. set_solver. }
        right. exists x, y. split_and!; [simpl; set_solver|by apply Hsub|apply Hxy|apply Hxy].
      * destruct (IHr p) as [?|(x & y & Hx & Hy & Hxy)]; [|done|exact Hhr|left; by constructor|].
        { intros x Hx. apply Ht. simpl. set_solver. }
        right. exists x, y. split_and!; [simpl; set_solver|by apply Hsub|apply Hxy|apply Hxy].
    + right. exists (sorted_pair (root H l) (root H r)), (sorted_pair h s). unfold claim_strings. rewrite climb_app. fold h.
      split_and!; [simpl; set_solver|set_solver|done|done].
Qed.

Theorem C35_check_sound : forall E t e p now start exp, hash_ok (keccak E) -> tree_ok t -> entry_ok e -> forallb is_hash p = true ->
  check_claim E now (e_amount e) start exp (e_index e) p (root (keccak E) t) (e_recipient e) = Ok tt ->
  (e ∈ entries t /\ proof_of (keccak E) t e p /\ (length p <= height t)%nat) \/ collision (keccak E) t e p.
Proof.
  intros E t e p now start exp HH Ht He Hp Hc. apply check_claim_iff in Hc as (_ & _ & Hc).
  apply is_hash_proof in Hp. unfold leaf_hash in Hc.
  change (le_bytes 4 (e_index e) ++ key_bytes (e_recipient e) ++ le_bytes 8 (e_amount e)) with (entry_bytes e) in Hc.
  rewrite merkle_loop_climb in Hc by done.
  destruct (climb_sound _ _ HH He _ _ Ht Hp Hc) as [Hpr|?]; [left|by right].
  split_and!; [by apply (proof_of_entry _ _ _ _ Hpr)|done|by apply (proof_of_length _ _ _ _ Hpr)].
Qed.

(** The same for the claim instruction: whoever is paid is in the tree. *)
Theorem C35_claim : forall E sg a index amount proof w w' evs c t,
  hash_ok (keccak E) -> tree_ok t ->
  campaign_view (la_campaign a) w = Ok c -> c_root c = root (keccak E) t ->
  merkle_exec E sg (MClaim a index amount proof) w = Ok (w', evs) ->
  Entry index (la_recipient a) amount ∈ entries t \/ collision (keccak E) t (Entry index (la_recipient a) amount) proof.
Proof.
  intros E sg a i am pf w w' evs c t HH Ht Hc Hroot Hx.
  apply exec_claim_inv in Hx as (Hok & tr & m & c' & vt & dt & fee & F).
  assert (c' = c) as ->. { apply load_campaign_ok in Hc. pose proof (lf_campaign _ _ _ _ _ _ _ _ _ _ _ _ _ _ _ F). congruence. }
  simpl in Hok. ranges.
  destruct (C35_check_sound E t (Entry i (la_recipient a) am) pf (get_current_time w) (c_start c) (c_expiration c) HH Ht) as [(? & _)|?];
    [split_and!; simpl; done || lia|done| |by left|by right].
  simpl. apply check_claim_iff. destruct F. rewrite <- Hroot. split_and!; [done| |done].
  unfold has_expired in lf_not_expired. lia.
Qed.

(** ** Non-vacuity: the tree of the example run *)
Definition tree3 : mtree :=
  Node (Node (Leaf (Entry 0 kRecipient 500)) (Leaf (Entry 1 kOther 300))) (Leaf (Entry 2 kCollector 200)).
Lemma keccak_hash_ok : hash_ok keccak256.
Proof.
  intros x. split; [apply keccak256_length|]. apply Forall_forall. intros b Hb. pose proof (proj1 (Forall_forall _ _) (keccak256_bytes x) b Hb) as Hr. simpl in Hr. lia.
Qed.
Lemma tree3_ok : tree_ok tree3.
Proof.
  intros e He. simpl in He. repeat (apply elem_of_cons in He as [->|He]; [vm_compute; intuition discriminate|]). by apply elem_of_nil in He.
Qed.
Lemma tree3_root : root keccak256 tree3 = rootABC.
Proof. vm_compute. reflexivity. Qed.
Lemma tree3_proof0 : proof_of keccak256 tree3 (Entry 0 kRecipient 500) [leafB; leafC].
Proof.
  assert (root keccak256 (Leaf (Entry 1 kOther 300)) = leafB) as <- by (vm_compute; reflexivity).
  assert (root keccak256 (Leaf (Entry 2 kCollector 200)) = leafC) as <- by (vm_compute; reflexivity).
  apply (po_left _ _ _ _ [_]). apply (po_left _ _ _ _ []). apply po_leaf.
Qed.
Lemma tree3_proof2 : proof_of keccak256 tree3 (Entry 2 kCollector 200) [nodeAB].
Proof.
  assert (root keccak256 (Node (Leaf (Entry 0 kRecipient 500)) (Leaf (Entry 1 kOther 300))) = nodeAB) as <- by (vm_compute; reflexivity).
  apply (po_right _ _ _ _ []). apply po_leaf.
Qed.
(** The proof of entry 0 is accepted; a changed amount, another recipient, an inner node passed off as a leaf's sibling,
    and a truncated proof are not. *)
Example C35_example :
  check_claim E0 1800 500 1500 0 0 [leafB; leafC] (root keccak256 tree3) kRecipient = Ok tt /\
  check_claim E0 1800 501 1500 0 0 [leafB; leafC] (root keccak256 tree3) kRecipient = Err (EMerkle InvalidMerkleProof) /\
  check_claim E0 1800 500 1500 0 0 [leafB; leafC] (root keccak256 tree3) kOther = Err (EMerkle InvalidMerkleProof) /\
  check_claim E0 1800 500 1500 0 0 [leafB] (root keccak256 tree3) kRecipient = Err (EMerkle InvalidMerkleProof) /\
  check_claim E0 1800 500 1500 0 0 [nodeAB] (root keccak256 tree3) kRecipient = Err (EMerkle InvalidMerkleProof).
Proof. rewrite tree3_root. split; [vm_compute; reflexivity|]. split; [vm_compute; reflexivity|]. split; [vm_compute; reflexivity|]. split; vm_compute; reflexivity. Qed.

Print Assumptions C34_check_accepts.
Print Assumptions C34_has_proof.
Print Assumptions C35_check_sound.
Print Assumptions C35_claim.
