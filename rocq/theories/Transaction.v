(** Transactions of the Solana runtime, around the instructions of the two programs and the operations of [Outside.v].
    Nothing here is in /repo; it is the documented behaviour of the runtime (agave: svm/src/transaction_processor.rs,
    svm-rent-collector/src/rent_state.rs, program-runtime's instruction checks). Not modelled: compute budget, transaction
    size, call depth, duplicate and expired transactions, durable nonces, scheduling and account locks. *)
From Verif Require Export PropRentState PropOutside.

(** The chain, and the length in bytes of the data of each account. *)
Record machine := Machine { ch : chain; lens : gmap key Z }.
Definition world_of (m : machine) : world := on (ch m).
Definition len_of (m : machine) (k : key) : Z := default 0 (lens m !! k).

(** One instruction, or one call from one program to another. [extra]: the addresses for which a calling program signs. *)
Inductive item :=
| IOurs (extra : list key) (i : any_ix)
| IOutside (extra : list key) (ops : list outside_op) (new : gmap key Z).   (* [new]: the lengths afterwards *)
Record tx := Tx { tx_payer : key; tx_fee : Z; tx_signers : list key; tx_writable : list key; tx_items : list item }.
Definition writable (t : tx) : list key := tx_payer t :: tx_writable t.

(** The accounts that come into being have the size the instruction asks for. *)
Definition grow (w : world) (l : list (key * Z)) (n : gmap key Z) : gmap key Z :=
  foldr (fun '(k, s) n => if bool_decide (wdat w !! k = None) then <[k := s]> n else n) n l.
Definition our_step (E : env) (sg : list key) (i : any_ix) (m : machine) : res (machine * list event) :=
  let! r := exec E sg i (world_of m) in
  Ok (Machine (Chain (fst r) (sides (ch m))) (grow (world_of m) (creates E i) (lens m)), snd r).
(** Operations of other programs, one after the other. The clock is not theirs to set. *)
Fixpoint outside_ops (E : env) (native : key) (sg : list key) (ops : list outside_op) (c : chain) : res chain :=
  match ops with
  | [] => Ok c
  | OClock _ :: _ => Err ECpi
  | o :: ops => let! c1 := outside E native sg o c in outside_ops E native sg ops c1
  end.

Inductive item_step (E : env) (native : key) (t : tx) (m : machine) : item -> list event -> machine -> Prop :=
| item_ours extra i evs m' : outsiders E (tx_signers t ++ extra) ->
    (forall k, k ∈ writable_of i -> k ∈ writable t) ->          (* Anchor: [mut]; the System program: privileges of a call *)
    our_step E (tx_signers t ++ extra) i m = Ok (m', evs) -> item_step E native t m (IOurs extra i) evs m'
| item_outside extra ops new c' : outsiders E (tx_signers t ++ extra) ->
    outside_ops E native (tx_signers t ++ extra) ops (ch m) = Ok c' ->
    (* a program resizes only its own accounts; an account without data has length 0 *)
    (forall k d, wdat (world_of m) !! k = Some d -> owned d <> None -> new !! k = lens m !! k) ->
    (forall k, 0 <= default 0 (new !! k) /\ (wdat (on c') !! k = None -> default 0 (new !! k) = 0)) ->
    item_step E native t m (IOutside extra ops new) [] (Machine c' new).

(** All lamports: those of the accounts, and those behind wrapped SOL ([wlam] in World.v does not count these). *)
Definition all_lamports (native : key) (w : world) : Z := lam_total w + total_balance w native.
(** What the runtime checks after each instruction; the last line says that lamports are u64, also all together. *)
Record checked (native : key) (t : tx) (m m' : machine) : Prop := {
  ck_readonly : forall k, k ∉ writable t -> wdat (world_of m') !! k = wdat (world_of m) !! k /\ side_of (ch m') k = side_of (ch m) k /\
    lam (world_of m') k = lam (world_of m) k /\ len_of m' k = len_of m k;
  ck_balanced : all_lamports native (world_of m') = all_lamports native (world_of m);
  ck_range : lamports_ok (world_of m') }.
Inductive items_run (E : env) (native : key) (t : tx) : machine -> list item -> list event -> machine -> Prop :=
| items_nil m : items_run E native t m [] [] m
| items_cons m x xs e1 e2 m1 m2 : item_step E native t m x e1 m1 -> checked native t m m1 -> items_run E native t m1 xs e2 m2 ->
    items_run E native t m (x :: xs) (e1 ++ e2) m2.

(** rent_state.rs *)
Inductive rent_state := Uninitialized | RentPaying (size lamports : Z) | RentExempt.
Definition state_of (E : env) (m : machine) (k : key) : rent_state :=
  let l := lam (world_of m) k in
  if l =? 0 then Uninitialized else if rent_min E (len_of m k) <=? l then RentExempt else RentPaying (len_of m k) l.
Definition allowed (pre post : rent_state) : bool :=
  match post with
  | RentPaying s l => match pre with RentPaying s0 l0 => (s =? s0) && (l <=? l0) | _ => false end
  | _ => true
  end.

(** The fee is taken first, from a system account without data, and is not returned. *)
Definition charge (t : tx) (m : machine) : machine :=
  Machine (Chain (set_lam (tx_payer t) (lam (world_of m) (tx_payer t) - tx_fee t) (world_of m)) (sides (ch m))) (lens m).
Definition fee_ok (E : env) (t : tx) (m : machine) : bool :=
  bool_decide (tx_payer t ∈ tx_signers t) && bool_decide (wdat (world_of m) !! tx_payer t = None) &&
  (0 <=? tx_fee t) && (tx_fee t <=? lam (world_of m) (tx_payer t)) &&
  allowed (state_of E m (tx_payer t)) (state_of E (charge t m) (tx_payer t)).

(** All instructions ran, and the rent states of the writable accounts may change as they did. An account left without
    lamports is deleted by the runtime. Only programs other than the token programs and these two can drain an account that
    has data; the model writes the deletion as a last operation [OForeign k None] or [OMetaplex k None] of the transaction, so
    that no data is left here. *)
Record commits (E : env) (native : key) (t : tx) (m : machine) (evs : list event) (m' : machine) : Prop := {
  cm_items : items_run E native t (charge t m) (tx_items t) evs m';
  cm_rent : forall k, k ∈ writable t -> allowed (state_of E (charge t m) k) (state_of E m' k) = true;
  cm_alive : forall k, lam (world_of m') k = 0 -> wdat (world_of m') !! k = None }.
Inductive processed (E : env) (native : key) (t : tx) (m : machine) : list event -> machine -> Prop :=
| tx_dropped : fee_ok E t m = false -> processed E native t m [] m
| tx_failed : fee_ok E t m = true -> (forall evs m', ~ commits E native t m evs m') -> processed E native t m [] (charge t m)
| tx_done evs m' : fee_ok E t m = true -> commits E native t m evs m' -> processed E native t m evs m'.

(** The life of the machine: transactions, the clock, and rewards that the runtime pays out. *)
Inductive mstep (E : env) (native : key) (m : machine) : list event -> machine -> Prop :=
| m_tx t evs m' : processed E native t m evs m' -> mstep E native m evs m'
| m_clock t : mstep E native m [] (Machine (Chain (World (wlam (world_of m)) (wdat (world_of m)) t) (sides (ch m))) (lens m))
| m_reward k n : 0 <= n -> lam_total (world_of m) + n <= U64_MAX -> all_lamports native (world_of m) + n <= U64_MAX -> rent_min E (len_of m k) <= lam (world_of m) k + n ->
    mstep E native m [] (Machine (Chain (set_lam k (lam (world_of m) k + n) (world_of m)) (sides (ch m))) (lens m)).
Inductive mrun (E : env) (native : key) (m0 : machine) : list event -> machine -> Prop :=
| mrun_nil : mrun E native m0 [] m0
| mrun_snoc evs m es m' : mrun E native m0 evs m -> mstep E native m es m' -> mrun E native m0 (evs ++ es) m'.

(** Genesis: some accounts have lamports (each enough to be left alone), none has data. *)
Definition start (l : gmap key Z) (t : Z) : machine := Machine (empty_chain l t) ∅.
Record start_ok (E : env) (l : gmap key Z) (t : Z) : Prop := {
  so_ledger : lamports_ok (on (empty_chain l t));
  so_exempt : forall k, lam (on (empty_chain l t)) k = 0 \/ rent_min E 0 <= lam (on (empty_chain l t)) k }.
(** The rent minimum of the runtime (6960 lamports per byte, and 128 bytes more) is positive, and extensions take space. *)
Definition rent_real (E : env) : Prop := (forall n, 0 <= n -> 0 < rent_min E n) /\ forall m, 0 <= ext_space E m.
