(** SHA-256 (FIPS 180-4), which Anchor uses to compute its 8-byte discriminators at compile time. *)
From Verif Require Export Base.
From Coq Require Import (notations) String.

Definition MASK32 : Z := 4294967295.
Definition add32 (x y : Z) : Z := Z.land (x + y) MASK32.
Definition rotr32 (x n : Z) : Z := Z.lor (Z.shiftr x n) (Z.land (Z.shiftl x (32 - n)) MASK32).
Definition not32 (x : Z) : Z := Z.lxor x MASK32.
Definition sha_ch (x y z : Z) : Z := Z.lxor (Z.land x y) (Z.land (not32 x) z).
Definition sha_maj (x y z : Z) : Z := Z.lxor (Z.lxor (Z.land x y) (Z.land x z)) (Z.land y z).
Definition big_sigma0 (x : Z) : Z := Z.lxor (Z.lxor (rotr32 x 2) (rotr32 x 13)) (rotr32 x 22).
Definition big_sigma1 (x : Z) : Z := Z.lxor (Z.lxor (rotr32 x 6) (rotr32 x 11)) (rotr32 x 25).
Definition small_sigma0 (x : Z) : Z := Z.lxor (Z.lxor (rotr32 x 7) (rotr32 x 18)) (Z.shiftr x 3).
Definition small_sigma1 (x : Z) : Z := Z.lxor (Z.lxor (rotr32 x 17) (rotr32 x 19)) (Z.shiftr x 10).

Definition sha_k : list Z :=
  [1116352408; 1899447441; 3049323471; 3921009573; 961987163; 1508970993; 2453635748; 2870763221;
   3624381080; 310598401; 607225278; 1426881987; 1925078388; 2162078206; 2614888103; 3248222580;
   3835390401; 4022224774; 264347078; 604807628; 770255983; 1249150122; 1555081692; 1996064986;
   2554220882; 2821834349; 2952996808; 3210313671; 3336571891; 3584528711; 113926993; 338241895;
   666307205; 773529912; 1294757372; 1396182291; 1695183700; 1986661051; 2177026350; 2456956037;
   2730485921; 2820302411; 3259730800; 3345764771; 3516065817; 3600352804; 4094571909; 275423344;
   430227734; 506948616; 659060556; 883997877; 958139571; 1322822218; 1537002063; 1747873779;
   1955562222; 2024104815; 2227730452; 2361852424; 2428436474; 2756734187; 3204031479; 3329325298].
Definition sha_init : list Z :=
  [1779033703; 3144134277; 1013904242; 2773480762; 1359893119; 2600822924; 528734635; 1541459225].

(** Big-endian bytes of a number. *)
Definition be_bytes (n : nat) (x : Z) : bytes := rev (le_bytes n x).

(** The message schedule, newest word first. *)
Fixpoint sha_schedule (n : nat) (ws : list Z) : list Z :=
  match n with
  | O => ws
  | S n' => sha_schedule n' (add32 (add32 (small_sigma1 (nth 1 ws 0)) (nth 6 ws 0))
                                   (add32 (small_sigma0 (nth 14 ws 0)) (nth 15 ws 0)) :: ws)
  end.
Definition sha_round (st : list Z) (kw : Z * Z) : list Z :=
  match st with
  | [a; b; c; d; e; f; g; h] =>
      let t1 := add32 (add32 (add32 h (big_sigma1 e)) (sha_ch e f g)) (add32 (fst kw) (snd kw)) in
      let t2 := add32 (big_sigma0 a) (sha_maj a b c) in
      [add32 t1 t2; a; b; c; add32 d t1; e; f; g]
  | _ => st
  end.
Definition sha_block (st : list Z) (blk : bytes) : list Z :=
  let ws := rev (sha_schedule 48 (rev (map (fun i => be_val (firstn 4 (skipn (4 * i) blk))) (seq 0 16)))) in
  zip_with add32 st (fold_left sha_round (zip sha_k ws) st).
Fixpoint sha_blocks (n : nat) (st : list Z) (l : bytes) : list Z :=
  match n with O => st | S n' => sha_blocks n' (sha_block st (firstn 64 l)) (skipn 64 l) end.
Definition sha_pad (l : bytes) : bytes :=
  let z := ((119 - length l mod 64) mod 64)%nat in
  l ++ [128] ++ repeat 0 z ++ be_bytes 8 (8 * Z.of_nat (length l)).
Definition sha256 (l : bytes) : bytes :=
  let p := sha_pad l in
  List.concat (map (be_bytes 4) (sha_blocks (length p / 64) sha_init p)).

(** Test vectors: the empty string, "abc", and a two-block message. *)
Example sha256_empty : firstn 8 (sha256 []) = [227; 176; 196; 66; 152; 252; 28; 20].
Proof. vm_compute. reflexivity. Qed.
Example sha256_abc : firstn 8 (sha256 (ascii_bytes "abc"%string)) = [186; 120; 22; 191; 143; 1; 207; 234].
Proof. vm_compute. reflexivity. Qed.
Example sha256_two_blocks : firstn 8 (sha256 (ascii_bytes "abcdbcdecdefdefgefghfghighijhijkijkljklmklmnlmnomnopnopq"%string))
  = [36; 141; 106; 97; 210; 6; 56; 184].
Proof. vm_compute. reflexivity. Qed.
