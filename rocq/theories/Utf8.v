(** UTF-8 validity, as Rust's [String::from_utf8] checks it (Unicode Standard, table 3-7). Borsh applies it when it
    decodes a [String], that is to the name and the IPFS CID of a campaign, both in instruction data and in the account. *)
From Verif Require Export Base.

Definition in_range (lo hi b : Z) : bool := (lo <=? b) && (b <=? hi).
Definition continuation (b : Z) : bool := in_range 128 191 b.
Fixpoint utf8_valid (l : bytes) : bool :=
  match l with
  | [] => true
  | a :: r =>
      if in_range 0 127 a then utf8_valid r
      else match r with
      | b :: r2 =>
          if in_range 194 223 a && continuation b then utf8_valid r2
          else match r2 with
          | c :: r3 =>
              if ((a =? 224) && in_range 160 191 b || in_range 225 236 a && continuation b
                  || (a =? 237) && in_range 128 159 b || in_range 238 239 a && continuation b) && continuation c
              then utf8_valid r3
              else match r3 with
              | d :: r4 =>
                  ((a =? 240) && in_range 144 191 b || in_range 241 243 a && continuation b
                   || (a =? 244) && in_range 128 143 b) && continuation c && continuation d && utf8_valid r4
              | [] => false
              end
          | [] => false
          end
      | [] => false
      end
  end.

(** ASCII is valid, as is "é€😀"; a lone continuation byte, an overlong form and a surrogate are not. *)
Lemma utf8_ascii l : Forall (fun b => 0 <= b <= 127) l -> utf8_valid l = true.
Proof.
  intros H. induction H as [|b l [Hb1 Hb2] _ IH]; [done|]. cbn [utf8_valid].
  apply Z.leb_le in Hb1, Hb2. unfold in_range. by rewrite Hb1, Hb2.
Qed.
Example utf8_examples : utf8_valid [195; 169; 226; 130; 172; 240; 159; 152; 128] = true /\ utf8_valid [128] = false /\
  utf8_valid [192; 128] = false /\ utf8_valid [237; 160; 128] = false /\ utf8_valid [226; 130] = false.
Proof. vm_compute. done. Qed.
