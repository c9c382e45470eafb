(** Keccak-256 as Solana's [keccak::hashv] computes it (the hash Merkle Instant uses,
    programs/merkle_instant/src/utils/validations.rs:1). The model's programs take the hash as a
    parameter; this concrete instance is used for the examples and to show that the assumption made about
    the hash (32-byte outputs) holds of the real one. *)
From Verif Require Export Base.

Definition MASK64 : Z := 18446744073709551615.
Definition rotl (x n : Z) : Z :=
  Z.lor (Z.land (Z.shiftl x n) MASK64) (Z.shiftr x (64 - n)).
Definition lane (st : list Z) (i : nat) : Z := nth i st 0.

Definition rho_offsets : list Z :=
  [0; 1; 62; 28; 27; 36; 44; 6; 55; 20; 3; 10; 43; 25; 39; 41; 45; 15; 21; 8; 18; 2; 61; 56; 14].
Definition round_constants : list Z :=
  [1; 32898; 9223372036854808714; 9223372039002292224; 32907; 2147483649; 9223372039002292353;
   9223372036854808585; 138; 136; 2147516425; 2147483658; 2147516555; 9223372036854775947;
   9223372036854808713; 9223372036854808579; 9223372036854808578; 9223372036854775936; 32778;
   9223372039002259466; 9223372039002292353; 9223372036854808704; 2147483649; 9223372039002292232].

Definition theta (st : list Z) : list Z :=
  let c := map (fun x => fold_left (fun a y => Z.lxor a (lane st (x + 5 * y)%nat)) [0; 1; 2; 3; 4]%nat 0)
               [0; 1; 2; 3; 4]%nat in
  let d := map (fun x => Z.lxor (lane c ((x + 4) mod 5)%nat) (rotl (lane c ((x + 1) mod 5)%nat) 1))
               [0; 1; 2; 3; 4]%nat in
  map (fun i => Z.lxor (lane st i) (lane d (i mod 5)%nat)) (seq 0 25).
Definition rho_pi (st : list Z) : list Z :=
  map (fun i => let x := (i mod 5)%nat in let y := (i / 5)%nat in
                let j := ((x + 3 * y) mod 5 + 5 * x)%nat in rotl (lane st j) (nth j rho_offsets 0)) (seq 0 25).
Definition chi (st : list Z) : list Z :=
  map (fun i => let x := (i mod 5)%nat in let y := (i / 5)%nat in
                Z.lxor (lane st i)
                  (Z.land (Z.lxor (lane st ((x + 1) mod 5 + 5 * y)%nat) MASK64) (lane st ((x + 2) mod 5 + 5 * y)%nat)))
      (seq 0 25).
Definition iota (rc : Z) (st : list Z) : list Z :=
  match st with [] => [] | a :: r => Z.lxor a rc :: r end.
Definition keccak_f (st : list Z) : list Z :=
  fold_left (fun s rc => iota rc (chi (rho_pi (theta s)))) round_constants st.

(** Padding of the last block (rate 136 bytes): 0x01, zeros, 0x80. *)
Definition pad (l : bytes) : bytes :=
  let r := (136 - length l mod 136)%nat in
  match r with
  | 1%nat => l ++ [129]
  | _ => l ++ [1] ++ repeat 0 (r - 2) ++ [128]
  end.
Definition absorb_block (st : list Z) (blk : bytes) : list Z :=
  keccak_f (map (fun i => if (i <? 17)%nat then Z.lxor (lane st i) (le_val (firstn 8 (skipn (8 * i) blk)))
                          else lane st i) (seq 0 25)).
Fixpoint absorb (n : nat) (st : list Z) (l : bytes) : list Z :=
  match n with O => st | S n' => absorb n' (absorb_block st (firstn 136 l)) (skipn 136 l) end.
Definition keccak256 (l : bytes) : bytes :=
  let p := pad l in
  let st := absorb (length p / 136) (repeat 0 25) p in
  le_bytes 8 (lane st 0) ++ le_bytes 8 (lane st 1) ++ le_bytes 8 (lane st 2) ++ le_bytes 8 (lane st 3).

Lemma le_bytes_length n x : length (le_bytes n x) = n.
Proof. revert x; induction n; intros x; [done|]; simpl; by rewrite IHn. Qed.
Lemma le_bytes_byte n x : Forall (fun b => 0 <= b <= 255) (le_bytes n x).
Proof.
  revert x; induction n; intros x; [constructor|]; simpl; constructor; [|apply IHn].
  pose proof (Z.mod_pos_bound x 256). lia.
Qed.

(** The output always has 32 bytes. *)
Theorem keccak256_length l : length (keccak256 l) = 32%nat.
Proof. unfold keccak256. rewrite !app_length, !le_bytes_length. done. Qed.
Theorem keccak256_bytes l : Forall (fun b => 0 <= b <= 255) (keccak256 l).
Proof. unfold keccak256. rewrite !Forall_app. repeat split; apply le_bytes_byte. Qed.

(** Known answers: keccak256("") and keccak256("abc"). *)
Example keccak_empty : be_val (keccak256 []) =
  89477152217924674838424037953991966239322087453347756267410168184682657981552.
Proof. vm_compute. reflexivity. Qed.
Example keccak_abc : be_val (keccak256 [97; 98; 99]) =
  0x4e03657aea45a94fc7d47ba826c8d667c0d1e6e33a64a036ec44f58fa12d6c45.
Proof. vm_compute. reflexivity. Qed.
