(** Correctness of the byte formats of Borsh.v, one codec at a time. *)
From Verif Require Export Borsh Facts Seeds.

(** What a codec must satisfy: every value of the type is read back, whatever follows it; and whatever is read is a
    value of the type whose encoding is exactly what was consumed. *)
Definition byte_list (l : bytes) : Prop := Forall (fun b => 0 <= b <= 255) l.
Record codec_ok {A} (c : codec A) : Prop := {
  ck_read : forall x rest, val_ok c x = true -> dec c (enc c x ++ rest) = Some (x, rest);
  ck_sound : forall l x rest, byte_list l -> dec c l = Some (x, rest) -> val_ok c x = true /\ l = enc c x ++ rest;
  ck_bytes : forall x, val_ok c x = true -> byte_list (enc c x) }.

Lemma take_app n (b rest : bytes) : length b = n -> take_bytes n (b ++ rest) = Some (b, rest).
Proof.
  intros <-. unfold take_bytes. rewrite app_length. destruct (Nat.leb_spec (length b) (length b + length rest)); [|lia].
  by rewrite take_app, drop_app.
Qed.
Lemma take_sound n l b rest : take_bytes n l = Some (b, rest) -> l = b ++ rest /\ length b = n.
Proof.
  unfold take_bytes. destruct (Nat.leb_spec n (length l)); [|done]. intros [= <- <-].
  split; [by rewrite take_drop|]. rewrite firstn_length. lia.
Qed.
Lemma byte_list_app l1 l2 : byte_list (l1 ++ l2) <-> byte_list l1 /\ byte_list l2.
Proof. apply Forall_app. Qed.
Lemma forallb_bytes l : forallb is_byte l = true <-> byte_list l.
Proof.
  unfold byte_list. rewrite forallb_forall, Forall_forall. split; intros H x Hx.
  - specialize (H x (proj1 (elem_of_list_In _ _) Hx)). unfold is_byte in H. apply andb_prop in H as [?%Z.leb_le ?%Z.leb_le]. lia.
  - specialize (H x (proj2 (elem_of_list_In _ _) Hx)). unfold is_byte. apply andb_true_intro. split; apply Z.leb_le; lia.
Qed.
Lemma le_val_range l : byte_list l -> 0 <= le_val l < 256 ^ Z.of_nat (length l).
Proof.
  intros H. induction H as [|b l Hb _ IH]; [done|]. cbn [le_val length]. rewrite Nat2Z.inj_succ, Z.pow_succ_r by lia. lia.
Qed.
Lemma le_bytes_val l : byte_list l -> le_bytes (length l) (le_val l) = l.
Proof.
  intros H. induction H as [|b l Hb Hl IH]; [done|]. cbn [le_val length le_bytes]. f_equal.
  - rewrite (Z.mul_comm 256), Z_mod_plus_full. apply Z.mod_small. lia.
  - rewrite Z.add_comm, (Z.mul_comm 256), Z_div_plus_full_l by lia. rewrite (Z.div_small b) by lia. by rewrite Z.add_0_r.
Qed.

Lemma unit_ok : codec_ok c_unit.
Proof. split; [by intros [] rest|by intros l [] rest _ [= ->]|constructor]. Qed.
Lemma uint_ok n : codec_ok (c_uint n).
Proof.
  split; cbn [c_uint enc dec val_ok].
  - intros x rest [?%Z.leb_le ?%Z.ltb_lt]%andb_prop. rewrite take_app by apply le_bytes_length. by rewrite le_val_bytes.
  - intros l x rest Hl H. destruct (take_bytes n l) as [[b r]|] eqn:Ht; [|done]. injection H as <- <-.
    apply take_sound in Ht as [-> <-]. apply byte_list_app in Hl as [Hb _]. pose proof (le_val_range b Hb).
    split; [|by rewrite le_bytes_val]. apply andb_true_intro. split; [apply Z.leb_le|apply Z.ltb_lt]; lia.
  - intros x _. apply le_bytes_byte.
Qed.
Lemma bool_ok : codec_ok c_bool.
Proof.
  split; cbn [c_bool enc dec val_ok].
  - by intros [] rest _.
  - intros l x rest _ H. destruct l as [|b l]; [done|]. destruct b as [|[]|]; try done; by injection H as <- <-.
  - intros [] _; repeat constructor; lia.
Qed.
Lemma hash_codec_ok : codec_ok c_hash.
Proof.
  split; cbn [c_hash enc dec val_ok]; unfold is_hash.
  - intros x rest [?%Z.eqb_eq _]%andb_prop. apply take_app. lia.
  - intros l x rest Hl H. apply take_sound in H as [-> H]. apply byte_list_app in Hl as [Hb _]. split; [|done].
    apply andb_true_intro. split; [apply Z.eqb_eq; lia|by apply forallb_bytes].
  - intros x [_ H]%andb_prop. by apply forallb_bytes.
Qed.
Lemma string_ok : codec_ok c_string.
Proof.
  split; unfold c_string; cbn [enc dec val_ok]; unfold is_string, is_u32.
  - intros x rest [[[?%Z.leb_le Hl%Z.leb_le]%andb_prop _]%andb_prop Hu]%andb_prop. rewrite <- app_assoc.
    change (le_bytes 4 ?z) with (enc c_u32 z). rewrite (ck_read _ (uint_ok 4)); [|cbn; apply andb_true_intro; split; [apply Z.leb_le|apply Z.ltb_lt]; lia].
    rewrite Nat2Z.id, take_app by done. by rewrite Hu.
  - intros l x rest Hl H. destruct (dec c_u32 l) as [[n l1]|] eqn:H1; [|done].
    apply (ck_sound _ (uint_ok 4)) in H1 as [Hn ->]; [|done]. apply byte_list_app in Hl as [_ Hl1].
    destruct (take_bytes _ l1) as [[b r]|] eqn:H2; [|done]. apply take_sound in H2 as [-> Hb].
    destruct (utf8_valid b) eqn:Hu; [|done]. injection H as <- <-. apply byte_list_app in Hl1 as [Hbb _].
    cbn in Hn. apply andb_prop in Hn as [Hn1%Z.leb_le Hn2%Z.ltb_lt].
    replace (Z.of_nat (length b)) with n by lia. split; [|cbn [c_u32 c_uint enc]; by rewrite app_assoc].
    apply andb_true_intro. split; [|done]. apply andb_true_intro. split; [|by apply forallb_bytes].
    apply andb_true_intro. split; apply Z.leb_le; lia.
  - intros x [[_ Hb]%andb_prop _]%andb_prop. apply byte_list_app. split; [apply le_bytes_byte|by apply forallb_bytes].
Qed.
Lemma dec_many_read {A} (c : codec A) xs rest : codec_ok c -> forallb (val_ok c) xs = true ->
  dec_many c (length xs) (List.concat (map (enc c) xs) ++ rest) = Some (xs, rest).
Proof.
  intros Hc. induction xs as [|x xs IH]; [done|]. intros [Hx Hxs]%andb_prop. cbn [length dec_many map List.concat].
  rewrite <- app_assoc, (ck_read _ Hc) by done. by rewrite IH.
Qed.
Lemma dec_many_sound {A} (c : codec A) n l xs rest : codec_ok c -> byte_list l -> dec_many c n l = Some (xs, rest) ->
  length xs = n /\ forallb (val_ok c) xs = true /\ l = List.concat (map (enc c) xs) ++ rest.
Proof.
  intros Hc. revert l xs. induction n as [|n IH]; intros l xs Hl H; cbn [dec_many] in H.
  - by injection H as <- <-.
  - destruct (dec c l) as [[x l1]|] eqn:H1; [|done]. apply (ck_sound _ Hc) in H1 as [Hx ->]; [|done].
    apply byte_list_app in Hl as [_ Hl]. destruct (dec_many c n l1) as [[ys r]|] eqn:H2; [|done]. injection H as <- <-.
    destruct (IH _ _ Hl H2) as (Hlen & Hys & ->). cbn [length forallb map List.concat].
    split; [by rewrite Hlen|]. rewrite Hx, Hys. split; [done|]. by rewrite app_assoc.
Qed.
Lemma vec_ok {A} (c : codec A) : codec_ok c -> codec_ok (c_vec c).
Proof.
  intros Hc. split; unfold c_vec; cbn [enc dec val_ok]; unfold is_u32.
  - intros xs rest [[?%Z.leb_le ?%Z.leb_le]%andb_prop Hxs]%andb_prop. rewrite <- app_assoc.
    change (le_bytes 4 ?z) with (enc c_u32 z). rewrite (ck_read _ (uint_ok 4)); [|cbn; apply andb_true_intro; split; [apply Z.leb_le|apply Z.ltb_lt]; lia].
    rewrite Nat2Z.id. by apply dec_many_read.
  - intros l xs rest Hl H. destruct (dec c_u32 l) as [[n l1]|] eqn:H1; [|done].
    apply (ck_sound _ (uint_ok 4)) in H1 as [Hn ->]; [|done]. apply byte_list_app in Hl as [_ Hl1].
    cbn in Hn. apply andb_prop in Hn as [Hn1%Z.leb_le Hn2%Z.ltb_lt].
    apply dec_many_sound in H as (Hlen & Hxs & ->); [|done|done].
    replace (Z.of_nat (length xs)) with n by lia. split; [|cbn [c_u32 c_uint enc]; by rewrite app_assoc].
    apply andb_true_intro. split; [|done]. apply andb_true_intro. split; apply Z.leb_le; lia.
  - intros xs [_ Hxs]%andb_prop. apply byte_list_app. split; [apply le_bytes_byte|].
    induction xs as [|x xs IH]; [constructor|]. apply andb_prop in Hxs as [Hx Hxs]. cbn. apply byte_list_app. split; [by apply (ck_bytes _ Hc)|by apply IH].
Qed.
Lemma pair_ok {A B} (ca : codec A) (cb : codec B) : codec_ok ca -> codec_ok cb -> codec_ok (ca ** cb).
Proof.
  intros Ha Hb. split; unfold c_pair; cbn [enc dec val_ok].
  - intros [x y] rest [Hx Hy]%andb_prop. cbn [fst snd] in *. rewrite <- app_assoc, (ck_read _ Ha) by done. by rewrite (ck_read _ Hb).
  - intros l [x y] rest Hl H. destruct (dec ca l) as [[x1 l1]|] eqn:H1; [|done]. apply (ck_sound _ Ha) in H1 as [Hx ->]; [|done].
    apply byte_list_app in Hl as [_ Hl]. destruct (dec cb l1) as [[y1 r]|] eqn:H2; [|done].
    apply (ck_sound _ Hb) in H2 as [Hy ->]; [|done]. injection H as -> -> ->. cbn [fst snd]. rewrite Hx, Hy. split; [done|]. by rewrite app_assoc.
  - intros [x y] [Hx Hy]%andb_prop. apply byte_list_app. split; [by apply (ck_bytes _ Ha)|by apply (ck_bytes _ Hb)].
Qed.
Lemma map_ok {A B} (f : A -> B) (g : B -> A) (c : codec A) : (forall x, f (g x) = x) -> (forall x, g (f x) = x) ->
  codec_ok c -> codec_ok (c_map f g c).
Proof.
  intros Hfg Hgf Hc. split; unfold c_map; cbn [enc dec val_ok].
  - intros x rest Hx. rewrite (ck_read _ Hc) by done. by rewrite Hfg.
  - intros l x rest Hl H. destruct (dec c l) as [[a r]|] eqn:H1; [|done]. injection H as <- <-. rewrite Hgf. by apply (ck_sound _ Hc).
  - intros x Hx. by apply (ck_bytes _ Hc).
Qed.

Ltac codec_tac := repeat first
  [ apply uint_ok | apply bool_ok | apply hash_codec_ok | apply string_ok | apply unit_ok | apply vec_ok | apply pair_ok
  | apply map_ok; [by intros []|intros; repeat match goal with x : _ * _ |- _ => destruct x end; reflexivity|] ].
Lemma amounts_ok : codec_ok c_amounts. Proof. unfold c_amounts. codec_tac. Qed.
Lemma timestamps_ok : codec_ok c_timestamps. Proof. unfold c_timestamps. codec_tac. Qed.
Lemma stream_codec_ok : codec_ok c_stream.
Proof. unfold c_stream. repeat first [apply amounts_ok | apply timestamps_ok | codec_tac]. Qed.
Lemma treasury_codec_ok : codec_ok c_treasury. Proof. unfold c_treasury. codec_tac. Qed.
Lemma collection_codec_ok : codec_ok c_collection. Proof. unfold c_collection. codec_tac. Qed.
Lemma campaign_codec_ok : codec_ok c_campaign. Proof. unfold c_campaign. codec_tac. Qed.
Lemma dur_args_ok : codec_ok c_dur_args. Proof. unfold c_dur_args. codec_tac. Qed.
Lemma ts_args_ok : codec_ok c_ts_args. Proof. unfold c_ts_args. codec_tac. Qed.
Lemma three_keys_ok : codec_ok c_three_keys. Proof. unfold c_three_keys. codec_tac. Qed.
Lemma campaign_args_ok : codec_ok c_campaign_args. Proof. unfold c_campaign_args. codec_tac. Qed.
