(** C77: the client's tree helper and the on-chain claim agree, for every list of entries. *)
From Verif Require Export MerkleClient PropClaim.

(** ** Layers of subtrees *)
Fixpoint next_trees (ts : list mtree) : list mtree :=
  match ts with a :: b :: r => Node a b :: next_trees r | _ => ts end.
Lemma pair_ind {A} (P : list A -> Prop) : P [] -> (forall x, P [x]) -> (forall x y r, P r -> P (x :: y :: r)) -> forall l, P l.
Proof.
  intros H0 H1 H2 l. enough (P l /\ forall x, P (x :: l)) by tauto.
  induction l as [|a l [IH1 IH2]]; split; auto.
Qed.
Lemma buffer_le_val x y : buffer_le x y = bytes_leb x y.
Proof.
  revert y. induction x as [|a x IH]; intros [|b y]; [done|done|done|]. simpl. rewrite IH.
  destruct (Z.eqb_spec a b) as [->|]; [by rewrite Z.ltb_irrefl|]. simpl. by rewrite orb_false_r.
Qed.
Lemma next_layer_trees H ts : hash_ok H -> next_layer H (map (root H) ts) = map (root H) (next_trees ts).
Proof.
  intros HH. induction ts as [|x|x y r IH] using pair_ind; [done|done|]. cbn [map next_layer next_trees]. f_equal; [|done].
  cbn [root]. f_equal. unfold buffer_pair, sorted_pair. destruct (root_hash H x HH), (root_hash H y HH).
  by rewrite buffer_le_val, bytes_leb_val by congruence.
Qed.
Lemma next_layer_length H l : length (next_layer H l) = ((length l + 1) / 2)%nat.
Proof.
  induction l as [|x|x y r IH] using pair_ind; [done|done|]. cbn [next_layer length]. rewrite IH.
  replace (S (S (length r)) + 1)%nat with (1 * 2 + (length r + 1))%nat by lia. rewrite Nat.div_add_l by lia. lia.
Qed.
Lemma next_trees_length ts : length (next_trees ts) = ((length ts + 1) / 2)%nat.
Proof.
  induction ts as [|x|x y r IH] using pair_ind; [done|done|]. cbn [next_trees length]. rewrite IH.
  replace (S (S (length r)) + 1)%nat with (1 * 2 + (length r + 1))%nat by lia. rewrite Nat.div_add_l by lia. lia.
Qed.
Lemma next_trees_entries ts : List.concat (map entries (next_trees ts)) = List.concat (map entries ts).
Proof.
  induction ts as [|x|x y r IH] using pair_ind; [done|done|]. cbn [next_trees map List.concat entries]. by rewrite IH, app_assoc.
Qed.
(** The sibling at position [i], and the tree above it. *)
Lemma next_trees_step H ts i t e p : ts !! i = Some t -> proof_of H t e p ->
  exists t', next_trees ts !! Nat.div2 i = Some t' /\
    proof_of H t' e (p ++ match map (root H) ts !! (if Nat.odd i then i - 1 else i + 1)%nat with Some x => [x] | None => [] end).
Proof.
  revert i. induction ts as [|x|x y r IH] using pair_ind; intros i Hi Hp.
  - done.
  - destruct i as [|i]; [|done]. injection Hi as ->. exists t. split; [done|]. simpl. by rewrite app_nil_r.
  - destruct i as [|[|i]].
    + injection Hi as ->. exists (Node t y). split; [done|]. simpl. by apply po_left.
    + injection Hi as ->. exists (Node x t). split; [done|]. simpl. by apply po_right.
    + destruct (IH i Hi Hp) as (t' & Ht & Hq). exists t'. split; [exact Ht|].
      assert (Nat.odd (S (S i)) = Nat.odd i) as -> by reflexivity.
      destruct (Nat.odd i) eqn:Ho.
      * assert (exists j, i = S j) as [j ->] by (destruct i as [|j]; [discriminate Ho|by exists j]).
        replace (S (S (S j)) - 1)%nat with (S (S j)) by lia. replace (S j - 1)%nat with j in Hq by lia. exact Hq.
      * replace (S (S i) + 1)%nat with (S (S (i + 1))) by lia. exact Hq.
Qed.

Lemma half_lt n : (1 < n)%nat -> ((n + 1) / 2 < n)%nat.
Proof. intros Hn. apply Nat.div_lt_upper_bound; lia. Qed.
Lemma half_pos n : (0 < n)%nat -> (0 < (n + 1) / 2)%nat.
Proof. intros Hn. apply Nat.div_str_pos; lia. Qed.

(** The layers lead to one tree over all entries. *)
Lemma layers_tree H : hash_ok H -> forall fuel ts, (0 < length ts <= fuel)%nat -> exists t,
  entries t = List.concat (map entries ts) /\ last (layers H fuel (map (root H) ts)) = Some [root H t] /\
  forall i ti e p, ts !! i = Some ti -> proof_of H ti e p -> proof_of H t e (p ++ walk i (layers H fuel (map (root H) ts))).
Proof.
  intros HH. induction fuel as [|f IH]; intros ts Hl; [lia|].
  cbn [layers]. rewrite map_length. destruct (Nat.ltb_spec 1 (length ts)) as [Hn|Hn].
  - destruct (IH (next_trees ts)) as (t & He & Hr & Hp).
    { rewrite next_trees_length. pose proof (half_lt _ Hn). pose proof (half_pos (length ts)). lia. }
    exists t. rewrite next_layer_trees by done. split_and!.
    + by rewrite He, next_trees_entries.
    + rewrite last_cons, Hr. done.
    + intros i ti e p Hi Hq. destruct (next_trees_step H ts i ti e p Hi Hq) as (t' & Ht & Hq').
      cbn [walk]. rewrite app_assoc. by apply (Hp _ t').
  - destruct ts as [|t [|? ?]]; simpl in Hl, Hn; [lia| |lia]. exists t. split_and!.
    + simpl. by rewrite app_nil_r.
    + done.
    + intros [|i] ti e p Hi Hq; [|done]. injection Hi as ->. simpl. by rewrite app_nil_r.
Qed.
Lemma walk_length H i : forall h fuel nodes, (length nodes <= 2 ^ h)%nat -> (i < length nodes)%nat -> (length nodes <= fuel)%nat ->
  (length (walk i (layers H fuel nodes)) <= h)%nat.
Proof.
  intros h. revert i. induction h as [|h IH]; intros i fuel nodes Hn Hi Hf; (destruct fuel as [|f]; [lia|]); cbn [layers walk].
  - simpl in Hn. assert (i = 0)%nat as -> by lia. destruct (Nat.ltb_spec 1 (length nodes)); [lia|].
    rewrite lookup_ge_None_2; [done|]. simpl. lia.
  - rewrite app_length. destruct (Nat.ltb_spec 1 (length nodes)) as [Hl|Hl].
    + assert (length (walk (Nat.div2 i) (layers H f (next_layer H nodes))) <= h)%nat.
      { apply IH; rewrite next_layer_length.
        - simpl in Hn. apply Nat.lt_succ_r, Nat.div_lt_upper_bound; lia.
        - rewrite Nat.div2_div. apply Nat.div_lt_upper_bound; [lia|]. pose proof (Nat.div_mod (length nodes + 1) 2). pose proof (Nat.mod_upper_bound (length nodes + 1) 2). lia.
        - pose proof (half_lt _ Hl). lia. }
      destruct (nodes !! _); simpl; lia.
    + assert (i = 0)%nat as -> by lia. rewrite lookup_ge_None_2; [simpl; lia|]. simpl. lia.
Qed.
Lemma last_index_in x l : x ∈ l -> exists i, last_index x l = Some i /\ l !! i = Some x.
Proof.
  induction l as [|y r IH]; [by intros ?%elem_of_nil|]. intros Hin. simpl. destruct (last_index x r) as [i|] eqn:Hi.
  - exists (S i). split; [done|]. destruct (decide (x ∈ r)) as [Hr|Hr]; [destruct (IH Hr) as (j & Hj & Hk); injection Hj as <-; exact Hk|].
    exfalso. clear - Hi Hr. revert i Hi. induction r as [|z r IH]; [discriminate|]. simpl. intros i. destruct (last_index x r) as [j|] eqn:Hj.
    + intros _. eapply IH; [|reflexivity]. intros ?. apply Hr. by right.
    + case_bool_decide as Hb; [|discriminate]. intros _. apply Hr. rewrite Hb. by left.
  - apply elem_of_cons in Hin as [->|Hr]; [|destruct (IH Hr) as (j & Hj & _); discriminate Hj].
    exists O. by rewrite bool_decide_true.
Qed.

(** ** What the helper computes *)

(** One tree stands behind the root and behind every proof: its leaves are the given entries in the given order. *)
Theorem C77_root_commits : forall H es, hash_ok H -> es <> [] -> exists t, entries t = es /\ get_root H es = root H t.
Proof.
  intros H es HH Hne. destruct (layers_tree H HH (length es) (map Leaf es)) as (t & He & Hr & _).
  { rewrite map_length. destruct es; [done|simpl; lia]. }
  assert (map (root H) (map Leaf es) = map (compute_leaf H) es) as Hm by (rewrite map_map; by apply map_ext).
  rewrite Hm in Hr. exists t. split.
  - rewrite He. clear. induction es as [|e es IH]; [done|]. simpl in *. by rewrite IH.
  - unfold get_root, build_tree. by rewrite Hr.
Qed.
Lemma get_proof_tree H es e : hash_ok H -> e ∈ es -> exists t e', entries t = es /\ get_root H es = root H t /\ e' ∈ es /\
  compute_leaf H e' = compute_leaf H e /\ proof_of H t e' (get_proof H es e).
Proof.
  intros HH Hin. destruct (layers_tree H HH (length es) (map Leaf es)) as (t & He & Hr & Hp).
  { rewrite map_length. destruct es; [by apply elem_of_nil in Hin|simpl; lia]. }
  assert (map (root H) (map Leaf es) = map (compute_leaf H) es) as Hm by (rewrite map_map; by apply map_ext).
  rewrite Hm in Hr, Hp.
  destruct (last_index_in (compute_leaf H e) (map (compute_leaf H) es)) as (i & Hi & Hl).
  { apply elem_of_list_fmap. by exists e. }
  change (map (compute_leaf H) es) with (compute_leaf H <$> es) in Hl. apply list_lookup_fmap_inv in Hl as (e' & Hc & Hl).
  exists t, e'. split_and!.
  - rewrite He. clear. induction es as [|x es IH]; [done|]. simpl in *. by rewrite IH.
  - unfold get_root, build_tree. by rewrite Hr.
  - by eapply elem_of_list_lookup_2.
  - done.
  - unfold get_proof. rewrite Hi. apply (Hp i (Leaf e') e' []); [|constructor].
    change (map Leaf es) with (Leaf <$> es). by rewrite list_lookup_fmap, Hl.
Qed.
Lemma get_proof_climbs H es e : hash_ok H -> e ∈ es -> Forall is_hash32 (get_proof H es e) /\
  climb_end H (H (H (entry_bytes e))) (get_proof H es e) = get_root H es.
Proof.
  intros HH Hin. destruct (get_proof_tree H es e HH Hin) as (t & e' & He & Hr & _ & Hc & Hp). split.
  - by apply (proof_of_hashes H t e').
  - rewrite Hr, <- (proof_climbs H t e' _ HH Hp). change (H (H (entry_bytes e'))) with (compute_leaf H e'). by rewrite Hc.
Qed.

(** The proof the helper gives for an entry of the list is accepted against the root it gives for the list. *)
Theorem C77_proof_accepted : forall E es e now start exp, hash_ok (keccak E) -> e ∈ es -> start <= now -> ~ (0 < exp <= now) ->
  check_claim E now (e_amount e) start exp (e_index e) (get_proof (keccak E) es e) (get_root (keccak E) es) (e_recipient e) = Ok tt.
Proof.
  intros E es e now start exp HH Hin Hs He. apply check_claim_iff. split_and!; [done|done|].
  destruct (get_proof_climbs (keccak E) es e HH Hin) as [Hf Hc].
  unfold leaf_hash. change (le_bytes 4 (e_index e) ++ key_bytes (e_recipient e) ++ le_bytes 8 (e_amount e)) with (entry_bytes e).
  by rewrite merkle_loop_climb.
Qed.
(** It is logarithmic in the number of entries. *)
Theorem C77_proof_length : forall H es e, (length (get_proof H es e) <= Nat.log2_up (length es))%nat.
Proof.
  intros H es e. unfold get_proof. destruct (last_index _ _) as [i|] eqn:Hi; [|simpl; lia].
  assert (i < length es)%nat as Hl.
  { rewrite <- (map_length (compute_leaf H) es). clear - Hi. revert i Hi. generalize (map (compute_leaf H) es) as l. induction l as [|y r IH]; [discriminate|].
    simpl. intros i. destruct (last_index _ r) as [j|]; [intros [= <-]; pose proof (IH j eq_refl); simpl; lia|].
    case_bool_decide; [intros [= <-]; simpl; lia|discriminate]. }
  unfold build_tree. apply walk_length; rewrite map_length; [|lia|lia].
  destruct (Nat.le_gt_cases (length es) 1) as [H1|H1]; [assert (length es = 1)%nat as -> by lia; simpl; lia|].
  by apply Nat.log2_up_spec.
Qed.
(** A campaign created with the helper's root: every entry of the list can be claimed with the helper's proof... *)
Theorem C77_claim_succeeds : forall E w sg a e fee c es,
  env_ok E -> reachable E w -> signers_ok E sg -> hash_ok (keccak E) ->
  (forall x, x ∈ es -> entry_ok x) -> c_root c = get_root (keccak E) es -> e ∈ es ->
  forallb is_key [la_claimer a; la_recipient a; la_recipient_ata a; la_treasury a; la_mint a;
        la_campaign a; la_vault a; la_receipt a; la_chainlink a; la_feed a] = true ->
  claim_ready E w sg a e fee c ->
  exists w', merkle_exec E sg (MClaim a (e_index e) (e_amount e) (get_proof (keccak E) es e)) w =
    Ok (w', [EvClaim (e_amount e) (la_campaign a) (la_claimer a) (la_receipt a) fee (e_index e) (la_recipient a)]).
Proof.
  intros E w sg a e fee c es HE Hr Hsg HH Hok Hroot Hin Hk R.
  destruct (get_proof_climbs (keccak E) es e HH Hin) as [Hf Hc].
  apply (claim_live E w sg a e fee c _ HE (reachable_inv _ _ HE Hr) Hsg); [by apply Hok|done| | |done].
  - by apply is_hash_proof.
  - rewrite Hroot. pose proof (C77_proof_accepted E es e 0 0 0 HH Hin ltac:(lia) ltac:(lia)) as Hx.
    by apply check_claim_iff in Hx as (_ & _ & ?).
Qed.
(** ... and nothing else, whatever the proof, short of a collision of the hash function. *)
Theorem C77_nothing_else : forall E sg a index amount proof w w' evs c es,
  hash_ok (keccak E) -> es <> [] -> (forall x, x ∈ es -> entry_ok x) ->
  campaign_view (la_campaign a) w = Ok c -> c_root c = get_root (keccak E) es ->
  merkle_exec E sg (MClaim a index amount proof) w = Ok (w', evs) ->
  Entry index (la_recipient a) amount ∈ es \/
  exists t, entries t = es /\ collision (keccak E) t (Entry index (la_recipient a) amount) proof.
Proof.
  intros E sg a index amount proof w w' evs c es HH Hne Hok Hc Hroot Hx.
  destruct (C77_root_commits (keccak E) es HH Hne) as (t & He & Hr).
  destruct (C35_claim E sg a index amount proof w w' evs c t HH) as [Hin|Hcol]; [|done|by rewrite Hroot|done| |].
  - intros x Hxe. apply Hok. by rewrite <- He.
  - left. by rewrite <- He.
  - right. by exists t.
Qed.

(** ** Non-vacuity: the helper on the entries of the example run gives the root the example campaign has; a list of seven
    entries, each with the proof the helper gives, and an entry beside the list. *)
Definition list3 : list airdrop := [Entry 0 kRecipient 500; Entry 1 kOther 300; Entry 2 kCollector 200].
Definition list7 : list airdrop := map (fun i => Entry (Z.of_nat i) (kRecipient + Z.of_nat i) (100 + Z.of_nat i)) (seq 0 7).
Example C77_example :
  get_root keccak256 list3 = rootABC /\ get_proof keccak256 list3 (Entry 0 kRecipient 500) = [leafB; leafC] /\
  get_proof keccak256 list3 (Entry 2 kCollector 200) = [nodeAB] /\
  map (fun e => length (get_proof keccak256 list7 e)) list7 = [3; 3; 3; 3; 3; 3; 2]%nat /\
  map (fun e => check_claim E0 1800 (e_amount e) 1500 0 (e_index e) (get_proof keccak256 list7 e) (get_root keccak256 list7) (e_recipient e)) list7 = repeat (Ok tt) 7 /\
  check_claim E0 1800 100 1500 0 7 (get_proof keccak256 list7 (Entry 7 kRecipient 100)) (get_root keccak256 list7) kRecipient = Err (EMerkle InvalidMerkleProof).
Proof. split_and!; vm_compute; reflexivity. Qed.
