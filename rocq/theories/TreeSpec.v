(** Specification of Merkle trees of airdrop entries, independent of the program (C34, C35, C38). It describes the
    trees that campaigns are built with (tests/merkle-instant/utils/merkle.ts, modelled in MerkleClient.v; C77 relates the
    two): double-hashed leaves, and nodes that hash the smaller child before the larger. *)
From Verif Require Export Keccak.

(** One line of the airdrop: the recipient's position, address and amount. *)
Record airdrop := Entry { e_index : Z; e_recipient : key; e_amount : Z }.
Definition entry_ok (e : airdrop) : Prop :=
  0 <= e_index e <= 4294967295 /\ key_ok (e_recipient e) /\ 0 <= e_amount e <= U64_MAX.
(** 4 + 32 + 8 bytes. *)
Definition entry_bytes (e : airdrop) : bytes :=
  le_bytes 4 (e_index e) ++ key_bytes (e_recipient e) ++ le_bytes 8 (e_amount e).

(** A tree of any shape. *)
Inductive mtree := Leaf (e : airdrop) | Node (l r : mtree).
Fixpoint entries (t : mtree) : list airdrop :=
  match t with Leaf e => [e] | Node l r => entries l ++ entries r end.
Definition tree_ok (t : mtree) : Prop := forall e, e ∈ entries t -> entry_ok e.
Fixpoint height (t : mtree) : nat :=
  match t with Leaf _ => 0 | Node l r => S (Nat.max (height l) (height r)) end.
(** What the whole tree promises. *)
Definition sum_amounts (es : list airdrop) : Z := foldr (fun e acc => e_amount e + acc) 0 es.

(** A hash as a 256-bit big-endian number. *)
Definition hash_val (b : bytes) : Z := fold_left (fun acc x => 256 * acc + x) b 0.
Definition sorted_pair (x y : bytes) : bytes := if hash_val x <=? hash_val y then x ++ y else y ++ x.

(** The hash function returns 32 bytes. *)
Definition hash_ok (H : bytes -> bytes) : Prop := forall x, length (H x) = 32%nat /\ Forall (fun b => 0 <= b < 256) (H x).

Section tree.
  Context (H : bytes -> bytes).
  Fixpoint root (t : mtree) : bytes :=
    match t with Leaf e => H (H (entry_bytes e)) | Node l r => H (sorted_pair (root l) (root r)) end.
  (** The proof of an entry: the roots of the sibling trees from its leaf up to the root of the tree. *)
  Inductive proof_of : mtree -> airdrop -> list bytes -> Prop :=
  | po_leaf e : proof_of (Leaf e) e []
  | po_left l r e p : proof_of l e p -> proof_of (Node l r) e (p ++ [root r])
  | po_right l r e p : proof_of r e p -> proof_of (Node l r) e (p ++ [root l]).

  (** Every string hashed when the tree is built. *)
  Fixpoint tree_strings (t : mtree) : list bytes :=
    match t with
    | Leaf e => [entry_bytes e; H (entry_bytes e)]
    | Node l r => sorted_pair (root l) (root r) :: tree_strings l ++ tree_strings r
    end.
  (** Every string hashed when [proof] is checked for [e]. *)
  Fixpoint climb (h : bytes) (proof : list bytes) : list bytes :=
    match proof with
    | [] => []
    | s :: p => sorted_pair h s :: climb (H (sorted_pair h s)) p
    end.
  Definition claim_strings (e : airdrop) (proof : list bytes) : list bytes :=
    entry_bytes e :: H (entry_bytes e) :: climb (H (H (entry_bytes e))) proof.

  (** The strings hashed for the tree and those hashed for the claim exhibit a collision. *)
  Definition collision (t : mtree) (e : airdrop) (proof : list bytes) : Prop :=
    exists x y, x ∈ tree_strings t /\ y ∈ claim_strings e proof /\ x <> y /\ H x = H y.
End tree.

(** ** Facts about the specification *)
Lemma proof_of_entry H t e p : proof_of H t e p -> e ∈ entries t.
Proof. intros Hp. induction Hp; simpl; [by apply elem_of_list_singleton|apply elem_of_app; by left|apply elem_of_app; by right]. Qed.
Lemma proof_of_length H t e p : proof_of H t e p -> (length p <= height t)%nat.
Proof. intros Hp. induction Hp; simpl; rewrite ?app_length; simpl; lia. Qed.
Lemma proof_exists H t e : e ∈ entries t -> exists p, proof_of H t e p.
Proof.
  induction t as [e'|l IHl r IHr]; simpl.
  - intros ->%elem_of_list_singleton. exists []. constructor.
  - intros [[p Hp]%IHl|[p Hp]%IHr]%elem_of_app; eexists; [by apply po_left|by apply po_right].
Qed.
Lemma root_hash H t : hash_ok H -> length (root H t) = 32%nat /\ Forall (fun b => 0 <= b < 256) (root H t).
Proof. intros HH. destruct t; apply HH. Qed.
Lemma proof_of_hashes H t e p : hash_ok H -> proof_of H t e p -> Forall (fun b => length b = 32%nat /\ Forall (fun b => 0 <= b < 256) b) p.
Proof.
  intros HH Hp. induction Hp; [constructor|apply Forall_app; split; [done|]..]; apply Forall_singleton; by apply root_hash.
Qed.

Lemma hash_val_acc b a : fold_left (fun acc x => 256 * acc + x) b a = a * 256 ^ Z.of_nat (length b) + hash_val b.
Proof.
  unfold hash_val. revert a. induction b as [|x b IH]; intros a; cbn [fold_left length]; [simpl; lia|].
  rewrite (IH (256 * a + x)), (IH (256 * 0 + x)). rewrite Nat2Z.inj_succ, Z.pow_succ_r by lia. lia.
Qed.
Lemma hash_val_cons x b : hash_val (x :: b) = x * 256 ^ Z.of_nat (length b) + hash_val b.
Proof. unfold hash_val at 1. cbn [fold_left]. rewrite hash_val_acc. f_equal; lia. Qed.
Lemma hash_val_bound b : Forall (fun b => 0 <= b < 256) b -> 0 <= hash_val b < 256 ^ Z.of_nat (length b).
Proof.
  induction 1 as [|x b Hx Hb IH]; [unfold hash_val; simpl; lia|]. rewrite hash_val_cons. cbn [length].
  rewrite Nat2Z.inj_succ, Z.pow_succ_r by lia. nia.
Qed.
Lemma hash_val_inj x y : length x = length y -> Forall (fun b => 0 <= b < 256) x -> Forall (fun b => 0 <= b < 256) y ->
  hash_val x = hash_val y -> x = y.
Proof.
  intros Hl Hx. revert y Hl. induction Hx as [|a x Ha Hx IH]; intros [|b y] Hl Hy He; try done.
  injection Hl as Hl. apply Forall_cons in Hy as [Hb Hy]. rewrite !hash_val_cons, Hl in He.
  pose proof (hash_val_bound _ Hx) as Bx. pose proof (hash_val_bound _ Hy) as By. rewrite Hl in Bx.
  assert (a = b) as -> by nia. f_equal. apply IH; [done|done|lia].
Qed.

Lemma sorted_pair_length x y : length (sorted_pair x y) = (length x + length y)%nat.
Proof. unfold sorted_pair. destruct (_ <=? _); rewrite app_length; lia. Qed.
Lemma sorted_pair_comm x y : length x = length y -> Forall (fun b => 0 <= b < 256) x -> Forall (fun b => 0 <= b < 256) y ->
  sorted_pair x y = sorted_pair y x.
Proof.
  intros Hl Hx Hy. unfold sorted_pair. destruct (Z.leb_spec (hash_val x) (hash_val y)), (Z.leb_spec (hash_val y) (hash_val x)); try done; [|lia].
  assert (x = y) as -> by (apply hash_val_inj; [done..|lia]). done.
Qed.
Lemma sorted_pair_inj x y x' y' : length x = 32%nat -> length y = 32%nat -> length x' = 32%nat -> length y' = 32%nat ->
  sorted_pair x y = sorted_pair x' y' -> (x = x' /\ y = y') \/ (x = y' /\ y = x').
Proof.
  intros Hx Hy Hx' Hy'. unfold sorted_pair.
  destruct (_ <=? _), (_ <=? _); intros He; apply app_inj_1 in He as [-> ->]; try congruence; tauto.
Qed.
Lemma entry_bytes_length e : length (entry_bytes e) = 44%nat.
Proof. unfold entry_bytes. rewrite !app_length, !le_bytes_length. reflexivity. Qed.

(** The hash at the end of the climb. *)
Definition climb_end (H : bytes -> bytes) (h : bytes) (p : list bytes) : bytes := fold_left (fun h s => H (sorted_pair h s)) p h.
Lemma climb_app H h p s : climb H h (p ++ [s]) = climb H h p ++ [sorted_pair (climb_end H h p) s].
Proof. revert h. induction p as [|x p IH]; intros h; simpl; [done|]. by rewrite IH. Qed.
Lemma climb_end_app H h p s : climb_end H h (p ++ [s]) = H (sorted_pair (climb_end H h p) s).
Proof. unfold climb_end. by rewrite fold_left_app. Qed.
Lemma climb_end_hash H x p : hash_ok H -> length (climb_end H (H x) p) = 32%nat /\ Forall (fun b => 0 <= b < 256) (climb_end H (H x) p).
Proof. intros HH. destruct p as [|s p _] using rev_ind; [apply HH|]. rewrite climb_end_app. apply HH. Qed.
