(** C49: the NFT's name. *)
From Verif Require Export Inversion.
From Coq Require String.
Import String.StringSyntax.
Delimit Scope string_scope with string.

(** ** Specification of base 58 (Bitcoin alphabet), from the encoding's definition *)

(** The number a digit string denotes, most significant digit first. *)
Definition digits_value (base : Z) (ds : list Z) : Z := fold_left (fun acc d => acc * base + d) ds 0.

(** [s] is the base-58 text of the byte string [l]: a '1' per leading zero byte, followed by the base-58 digits of the
    number without leading zero digits, each written with its letter of the alphabet. *)
Record is_base58 (l : bytes) (s : bytes) : Prop := {
  b58_text : exists z ds, s = repeat 49 z ++ map (fun d => nth (Z.to_nat d) b58_alphabet 0) ds /\
    (* [z] leading zero bytes *)
    (exists r, l = repeat 0 z ++ r /\ hd 1 r <> 0) /\
    digits_value 58 ds = digits_value 256 l /\ hd 1 ds <> 0 /\ Forall (fun d => 0 <= d < 58) ds }.

Lemma digits_value_app b ds es : digits_value b (ds ++ es) = digits_value b ds * b ^ Z.of_nat (length es) + digits_value b es.
Proof.
  unfold digits_value. rewrite fold_left_app. generalize (fold_left (fun acc d => acc * b + d) ds 0) as x.
  induction es as [|e es IH] using rev_ind; intros x; [simpl; lia|].
  rewrite !fold_left_app, IH, app_length. simpl length. rewrite Nat2Z.inj_add. rewrite Z.pow_add_r by lia. simpl fold_left. lia.
Qed.
Lemma be_val_digits l : be_val l = digits_value 256 l.
Proof. done. Qed.
Lemma digits_value_bounds b ds : 1 < b -> Forall (fun d => 0 <= d < b) ds -> 0 <= digits_value b ds < b ^ Z.of_nat (length ds).
Proof.
  intros Hb. induction ds as [|e es IH] using rev_ind; intros H; [done|].
  apply Forall_app in H as [H1 H2]. apply Forall_cons in H2 as [H2 _]. specialize (IH H1).
  rewrite digits_value_app, app_length. simpl length. rewrite Nat2Z.inj_add, Z.pow_add_r by lia.
  change (digits_value b [e]) with (0 * b + e). change (Z.of_nat 1) with 1. rewrite Z.pow_1_r. nia.
Qed.
Lemma digits_value_lower b ds : 1 < b -> Forall (fun d => 0 <= d < b) ds -> hd 1 ds <> 0 -> ds <> [] ->
  b ^ (Z.of_nat (length ds) - 1) <= digits_value b ds.
Proof.
  intros Hb H Hh Hne. destruct ds as [|d ds]; [done|]. apply Forall_cons in H as [Hd H]. simpl in Hh.
  change (d :: ds) with ([d] ++ ds). rewrite digits_value_app, app_length. pose proof (digits_value_bounds b ds Hb H).
  change (digits_value b [d]) with (0 * b + d). simpl length.
  replace (Z.of_nat (1 + length ds) - 1) with (Z.of_nat (length ds)) by lia.
  pose proof (Z.pow_pos_nonneg b (Z.of_nat (length ds))). nia.
Qed.

Lemma b58_digits_ok fuel x : 0 <= x < 58 ^ Z.of_nat fuel ->
  digits_value 58 (b58_digits fuel x) = x /\ hd 1 (b58_digits fuel x) <> 0 /\ Forall (fun d => 0 <= d < 58) (b58_digits fuel x) /\
  (x <> 0 -> b58_digits fuel x <> []).
Proof.
  revert x. induction fuel as [|f IH]; intros x Hx.
  - change (58 ^ Z.of_nat 0) with 1 in Hx. assert (x = 0) as -> by lia. split_and!; done || constructor.
  - cbn [b58_digits]. destruct (Z.leb_spec x 0) as [H0|H0].
    + assert (x = 0) as -> by lia. split_and!; done || constructor.
    + rewrite Nat2Z.inj_succ, Z.pow_succ_r in Hx by lia.
      assert (0 <= x / 58 < 58 ^ Z.of_nat f) as Hq by (split; [apply Z.div_pos; lia|apply Z.div_lt_upper_bound; lia]).
      destruct (IH _ Hq) as (I1 & I2 & I3 & I4). pose proof (Z.mod_pos_bound x 58 ltac:(lia)) as Hm.
      pose proof (Z.div_mod x 58 ltac:(lia)) as Hdm. split_and!.
      * rewrite digits_value_app, I1. change (Z.of_nat (length [x mod 58])) with 1. change (digits_value 58 [x mod 58]) with (0 * 58 + x mod 58). lia.
      * destruct (decide (x / 58 = 0)) as [Hz|Hz].
        -- rewrite Hz. replace (b58_digits f 0) with (@nil Z) by (by destruct f). simpl. lia.
        -- specialize (I4 Hz). by destruct (b58_digits f (x / 58)).
      * apply Forall_app. split; [done|]. by constructor.
      * intros _. by destruct (b58_digits f (x / 58)).
Qed.

Lemma leading_zeros_split l : exists r, l = repeat 0 (leading_zeros l) ++ r /\ hd 1 r <> 0.
Proof.
  induction l as [|b l IH]; [by exists []|]. simpl leading_zeros.
  destruct b as [|p|p]; [|by exists (Z.pos p :: l)|by exists (Z.neg p :: l)].
  destruct IH as (r & Hr & Hh). exists r. split; [|done]. simpl. by rewrite <- Hr.
Qed.
Lemma digits_value_zeros b z : digits_value b (repeat 0 z) = 0.
Proof. induction z as [|z IH]; [done|]. change (repeat 0 (S z)) with ([0] ++ repeat 0 z). rewrite digits_value_app, IH. change (digits_value b [0]) with (0*b+0). lia. Qed.

Definition is_bytes (l : bytes) : Prop := Forall (fun b => 0 <= b < 256) l.

Theorem C49_base58 : forall l, is_bytes l -> is_base58 l (base58 l).
Proof.
  intros l Hl. split. exists (leading_zeros l), (b58_digits (2 * length l) (be_val l)).
  pose proof (digits_value_bounds 256 l ltac:(lia) Hl) as Hb.
  destruct (b58_digits_ok (2 * length l) (be_val l)) as (I1 & I2 & I3 & _).
  { rewrite be_val_digits. split; [lia|]. eapply Z.lt_le_trans; [apply Hb|].
    rewrite Nat2Z.inj_mul. change (Z.of_nat 2) with 2. rewrite Z.pow_mul_r by lia. apply Z.pow_le_mono_l. change (58 ^ 2) with 3364. lia. }
  split; [|split; [apply leading_zeros_split|done]].
  unfold base58, b58_char. rewrite map_app. f_equal. generalize (leading_zeros l). induction n as [|n IH]; [done|]. simpl. by f_equal.
Qed.

(** The text has at least as many letters as there are bytes. *)
Lemma base58_length l : is_bytes l -> (length l <= length (base58 l))%nat.
Proof.
  intros Hl. destruct (C49_base58 l Hl) as [(z & ds & -> & (r & Hr & Hh) & Hv & Hd & HF)].
  rewrite app_length, repeat_length, map_length. rewrite Hr at 1. rewrite app_length, repeat_length.
  assert (digits_value 256 l = digits_value 256 r) as Hvr.
  { rewrite Hr, digits_value_app, digits_value_zeros. lia. }
  destruct (decide (r = [])) as [->|Hne]; [simpl; lia|].
  assert (is_bytes r) as Hrb by (rewrite Hr in Hl; by apply Forall_app in Hl as [_ ?]).
  pose proof (digits_value_lower 256 r ltac:(lia) Hrb Hh Hne) as Hlow.
  pose proof (digits_value_bounds 58 ds ltac:(lia) HF) as Hup. rewrite Hv, Hvr in Hup.
  assert (58 ^ (Z.of_nat (length r) - 1) <= 256 ^ (Z.of_nat (length r) - 1)) as Hm by (apply Z.pow_le_mono_l; lia).
  assert (58 ^ (Z.of_nat (length r) - 1) < 58 ^ Z.of_nat (length ds)) as Hlt by lia.
  apply Z.pow_lt_mono_r_iff in Hlt; lia.
Qed.
Lemma le_bytes_bytes n x : is_bytes (le_bytes n x).
Proof. revert x. induction n as [|n IH]; intros x; simpl; constructor; [|apply IH]. apply Z.mod_pos_bound. lia. Qed.
Lemma le_bytes_len n x : length (le_bytes n x) = n.
Proof. revert x. induction n as [|n IH]; intros x; simpl; [done|]. by rewrite IH. Qed.

(** The name: never an abort, exactly 32 bytes (Metaplex's limit), the fixed prefix, the first and the last five letters
    of the mint address. *)
Local Transparent nft_name.
Theorem C49_nft_name : forall k, exists text name,
  is_base58 (key_bytes k) text /\ nft_name k = Ok name /\ length name = 32%nat /\ (32 <= length text)%nat /\
  (exists first5 mid last5, text = first5 ++ mid ++ last5 /\ length first5 = 5%nat /\ length last5 = 5%nat /\
     name = ascii_bytes "Sablier LL Stream #"%string ++ first5 ++ ascii_bytes "..."%string ++ last5) /\
  Forall (fun c => 32 <= c < 127) name.
Proof.
  intros k. pose proof (le_bytes_bytes 32 k) as Hb. pose proof (C49_base58 _ Hb) as H58. pose proof (base58_length _ Hb) as Hlen.
  rewrite le_bytes_len in Hlen. set (t := base58 (le_bytes 32 k)) in *.
  assert (Forall (fun c => 32 <= c < 127) t) as Hpr.
  { destruct H58 as [(z & ds & -> & _ & _ & _ & HF)]. apply Forall_app. split; [apply Forall_forall; intros c Hc%elem_of_list_In%repeat_spec; lia|].
    apply Forall_map. eapply Forall_impl; [exact HF|]. intros d Hd. cbv beta in Hd |- *.
    assert (Forall (fun c => 32 <= c < 127) b58_alphabet) as Ha by (vm_compute; repeat constructor; lia || discriminate).
    assert (nth (Z.to_nat d) b58_alphabet 0 ∈ b58_alphabet) as Hin.
    { apply elem_of_list_In, nth_In. change (length b58_alphabet) with 58%nat. lia. }
    rewrite Forall_forall in Ha. by apply Ha. }
  exists t, (NFT_NAME_PREFIX ++ firstn 5 t ++ s_DOTS ++ skipn (length t - 5) t).
  split; [done|]. assert (length (firstn 5 t) = 5%nat) as L1 by (rewrite firstn_length; lia).
  assert (length (skipn (length t - 5) t) = 5%nat) as L2 by (rewrite skipn_length; lia).
  split; [|split; [|split; [done|split]]].
  - unfold nft_name, key_bytes. fold t. destruct (Nat.ltb_spec (length t) 5); [lia|done].
  - rewrite !app_length, L1, L2. done.
  - exists (firstn 5 t), (firstn (length t - 10) (skipn 5 t)), (skipn (length t - 5) t). split_and!; try done.
    rewrite <- (firstn_skipn 5 t) at 1. f_equal. rewrite <- (firstn_skipn (length t - 10) (skipn 5 t)) at 1. f_equal.
    rewrite drop_drop. f_equal. lia.
  - assert (Forall (fun c => 32 <= c < 127) NFT_NAME_PREFIX) by (vm_compute; repeat constructor; lia || discriminate).
    assert (Forall (fun c => 32 <= c < 127) s_DOTS) by (vm_compute; repeat constructor; lia || discriminate).
    repeat (apply Forall_app; split); try done; [by apply Forall_take|by apply Forall_drop].
Qed.
Print Assumptions C49_nft_name.
(** The name depends on the address only through its text, and is right for a concrete address:
    the System program's key (32 zero bytes) is thirty-two ones. *)
Example C49_example : is_base58 (key_bytes 0) (repeat 49 32) /\
  nft_name 0 = Ok (ascii_bytes "Sablier LL Stream #11111...11111"%string) /\
  (* Wrapped SOL: So11111111111111111111111111111111111111112 *)
  base58 ([6; 155; 136; 87; 254; 171; 129; 132; 251; 104; 127; 99; 70; 24; 192; 53; 218; 196; 57; 220; 26; 235; 59; 85; 152; 160; 240; 0; 0; 0; 0; 1])
    = ascii_bytes "So11111111111111111111111111111111111111112"%string.
Proof.
  split; [|split; vm_compute; reflexivity].
  pose proof (C49_base58 (key_bytes 0) (le_bytes_bytes 32 0)) as H. replace (repeat 49 32) with (base58 (key_bytes 0)) by (vm_compute; reflexivity). exact H.
Qed.
