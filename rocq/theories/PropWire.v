(** C78: every instruction fits in one transaction; how long a claim's proof may be. *)
From Verif Require Export Wire PropClient PropBorsh.

(** ** Key tables *)
Lemma firsts_in l x : x ∈ firsts l <-> x ∈ l.
Proof.
  induction l as [|y r IH]; [done|]. cbn [firsts]. rewrite !elem_of_cons, elem_of_list_In, filter_In, <- elem_of_list_In, IH.
  destruct (Z.eqb_spec x y); simpl; naive_solver.
Qed.
Lemma firsts_nodup l : NoDup (firsts l).
Proof.
  induction l as [|y r IH]; [constructor|]. cbn [firsts]. constructor.
  - rewrite elem_of_list_In, filter_In, Z.eqb_refl. intros [_ ?]. discriminate.
  - apply NoDup_ListNoDup, List.NoDup_filter, NoDup_ListNoDup, IH.
Qed.
Lemma firsts_le l l' : (forall x, x ∈ l -> x ∈ l') -> (length (firsts l) <= length l')%nat.
Proof.
  intros Hs. apply NoDup_incl_length; [apply NoDup_ListNoDup, firsts_nodup|]. intros x Hx.
  apply elem_of_list_In, Hs, firsts_in. by apply elem_of_list_In.
Qed.
Lemma firsts_ge l l' : NoDup l' -> (forall x, x ∈ l' -> x ∈ l) -> (length l' <= length (firsts l))%nat.
Proof.
  intros Hn Hs. apply NoDup_incl_length; [by apply NoDup_ListNoDup|]. intros x Hx.
  apply elem_of_list_In, firsts_in, Hs. by apply elem_of_list_In.
Qed.
Lemma filter_split {A} (f : A -> bool) l : (length (List.filter f l) + length (List.filter (fun x => negb (f x)) l) = length l)%nat.
Proof. induction l as [|x l IH]; [done|]. simpl. destruct (f x); simpl; lia. Qed.
Lemma filter_both {A} (f g : A -> bool) l : List.filter (fun x => f x && g x) l = List.filter g (List.filter f l).
Proof. induction l as [|x l IH]; [done|]. simpl. destruct (f x); simpl; [|done]. by rewrite IH. Qed.
Lemma table_length ms : length (key_table ms) = length (firsts (map meta_key ms)).
Proof.
  unfold key_table. set (ks := firsts _). rewrite !app_length, !(filter_both _ _ ks).
  pose proof (filter_split (is_signer ms) ks). pose proof (filter_split (is_writable ms) (List.filter (is_signer ms) ks)).
  pose proof (filter_split (is_writable ms) (List.filter (fun x => negb (is_signer ms x)) ks)). lia.
Qed.
Lemma filter_none {A} (f : A -> bool) l : (forall x, x ∈ l -> f x = false) -> List.filter f l = [].
Proof.
  intros H. induction l as [|x l IH]; [done|]. simpl. rewrite (H x) by left. apply IH. intros y Hy. apply H. by right.
Qed.
Lemma filter_all {A} (f : A -> bool) l : (forall x, x ∈ l -> f x = true) -> List.filter f l = l.
Proof.
  intros H. induction l as [|x l IH]; [done|]. simpl. rewrite (H x) by left. f_equal. apply IH. intros y Hy. apply H. by right.
Qed.
Lemma in_filter {A} (f : A -> bool) l x : x ∈ List.filter f l <-> x ∈ l /\ f x = true.
Proof. by rewrite !elem_of_list_In, filter_In. Qed.
(** The signatures of a message. *)
Lemma table_signers ms : List.filter (is_signer ms) (key_table ms) =
  List.filter (fun k => is_signer ms k && is_writable ms k) (firsts (map meta_key ms)) ++
  List.filter (fun k => is_signer ms k && negb (is_writable ms k)) (firsts (map meta_key ms)).
Proof.
  unfold key_table. set (ks := firsts _). rewrite !List.filter_app.
  rewrite (filter_all (is_signer ms) (List.filter _ ks)) by (intros x [_ ?]%in_filter; by bools).
  rewrite (filter_all (is_signer ms) (List.filter _ ks)) by (intros x [_ ?]%in_filter; by bools).
  rewrite (filter_none (is_signer ms) (List.filter _ ks)) by (intros x [_ Hx]%in_filter; by destruct (is_signer ms x)).
  rewrite (filter_none (is_signer ms) (List.filter _ ks)) by (intros x [_ Hx]%in_filter; by destruct (is_signer ms x)).
  by rewrite app_nil_r.
Qed.
Lemma signers_length ms : length (List.filter (is_signer ms) (key_table ms)) =
  length (List.filter (is_signer ms) (firsts (map meta_key ms))).
Proof.
  rewrite table_signers. set (ks := firsts _). rewrite app_length, !(filter_both _ _ ks).
  apply (filter_split (is_writable ms)).
Qed.
Lemma is_signer_in ms k : is_signer ms k = true <-> k ∈ map meta_key (List.filter meta_signer ms).
Proof.
  unfold is_signer. rewrite existsb_exists, elem_of_list_In, in_map_iff. split; intros (m & Hm).
  - exists m. rewrite filter_In. destruct Hm as (Hin & Hb). bools. split; [lia|done].
  - exists m. rewrite filter_In in Hm. destruct Hm as (<- & Hin & Hb). split; [done|]. by rewrite Z.eqb_refl.
Qed.
Lemma signers_le ms l : (forall m, m ∈ ms -> meta_signer m = true -> meta_key m ∈ l) ->
  (length (List.filter (is_signer ms) (key_table ms)) <= length l)%nat.
Proof.
  intros Hs. rewrite signers_length. apply NoDup_incl_length.
  - apply List.NoDup_filter, NoDup_ListNoDup, firsts_nodup.
  - intros x [_ Hx%is_signer_in]%filter_In. apply elem_of_list_fmap in Hx as (m & -> & [Hm Hb]%in_filter).
    apply elem_of_list_In. by apply Hs.
Qed.
Lemma signers_ge payer ixs : (1 <= length (List.filter (is_signer (message_metas payer ixs)) (key_table (message_metas payer ixs))))%nat.
Proof. rewrite signers_length. unfold message_metas. simpl. rewrite Z.eqb_refl. simpl. lia. Qed.

(** ** Sizes *)
Lemma concat_length_const {A B} (f : A -> list B) n l : (forall x, length (f x) = n) -> length (List.concat (map f l)) = (n * length l)%nat.
Proof. intros H. induction l as [|x l IH]; [simpl; lia|]. simpl. rewrite app_length, H, IH. lia. Qed.
Lemma compact_small n : n < 128 -> length (compact n) = 1%nat.
Proof. intros H. unfold compact. by destruct (Z.ltb_spec n 128); [|lia]. Qed.
Lemma compact_le n : n < 16384 -> (length (compact n) <= 2)%nat.
Proof. intros H. unfold compact. destruct (Z.ltb_spec n 128), (Z.ltb_spec n 16384); simpl; lia. Qed.
Lemma compact_ge n : (1 <= length (compact n))%nat.
Proof. unfold compact. destruct (Z.ltb_spec n 128), (Z.ltb_spec n 16384); simpl; lia. Qed.
Definition ix_size (x : wire_ix) : nat := (1 + length (compact (len (x_metas x))) + length (x_metas x) + length (compact (len (x_data x))) + length (x_data x))%nat.
Lemma ix_size_ok table x : length (wire_ix_bytes table x) = ix_size x.
Proof. unfold wire_ix_bytes, ix_size. rewrite !app_length, map_length. simpl. lia. Qed.
Definition sizes (ixs : list wire_ix) : nat := foldr (fun x n => ix_size x + n)%nat 0%nat ixs.
Lemma sizes_ok table ixs : length (List.concat (map (wire_ix_bytes table) ixs)) = sizes ixs.
Proof. induction ixs as [|x r IH]; [done|]. cbn [map List.concat]. by rewrite app_length, ix_size_ok, IH. Qed.
(** The size of a transaction with [s] signatures and [k] keys. *)
Lemma transaction_size sign payer bh ixs : (forall m k, length (sign m k) = 64%nat) -> length bh = 32%nat ->
  let ms := message_metas payer ixs in
  let s := length (List.filter (is_signer ms) (key_table ms)) in let k := length (firsts (map meta_key ms)) in
  length (transaction_bytes sign payer bh ixs) =
    (length (compact (Z.of_nat s)) + 64 * s + 3 + length (compact (Z.of_nat k)) + 32 * k + 32 + length (compact (len ixs)) + sizes ixs)%nat.
Proof.
  intros Hs Hb ms s k. unfold transaction_bytes, message_bytes. cbv zeta. fold ms.
  rewrite app_length. rewrite app_length. rewrite (concat_length_const (sign _) 64) by (intros; apply Hs).
  rewrite !app_length. rewrite (concat_length_const key_bytes 32) by apply key_bytes_length. rewrite sizes_ok, Hb.
  unfold len. rewrite table_length. fold s k. cbn [length]. lia.
Qed.

(** Data of instructions. *)
Lemma lockup_disc_length c : length (discriminator (lockup_name c)) = 8%nat.
Proof. destruct c; vm_compute; reflexivity. Qed.
Lemma merkle_disc_length c : length (discriminator (merkle_name c)) = 8%nat.
Proof. destruct c; vm_compute; reflexivity. Qed.
Lemma three_keys_length f p c : length (enc c_three_keys (f, p, c)) = 96%nat.
Proof. unfold c_three_keys. len. lia. Qed.
Lemma ts_args_length p : length (enc c_ts_args p) = 65%nat.
Proof. unfold c_ts_args. len. lia. Qed.
Lemma dur_args_length q : length (enc c_dur_args q) = 57%nat.
Proof. unfold c_dur_args. len. lia. Qed.
Lemma campaign_args_length g : length (g_root g) = 32%nat ->
  length (enc c_campaign_args g) = (68 + length (g_name g) + length (g_ipfs g))%nat.
Proof. intros Hr. unfold c_campaign_args. len. cbn [c_hash c_string enc]. rewrite !app_length, !le_bytes_length, Hr. lia. Qed.
Lemma claim_args_length i am pf : forallb is_hash pf = true ->
  length (enc (c_u32 ** c_u64 ** c_vec c_hash) (i, am, pf)) = (16 + 32 * length pf)%nat.
Proof.
  intros Hp. len. cbn [c_vec c_hash enc]. rewrite app_length, le_bytes_length.
  assert (length (List.concat (map (fun b => b) pf)) = (32 * length pf)%nat) as ->; [|lia].
  induction pf as [|x r IH]; [done|]. cbn [forallb] in Hp. apply andb_prop in Hp as [Hx Hr]. cbn [map List.concat length].
  rewrite app_length, IH by done. apply is_hash_32 in Hx as [Hx _]. rewrite Hx. lia.
Qed.

(** ** Bounds *)
Definition with_limit (cu : option Z) : nat := match cu with Some _ => 40 | None => 0 end.
Lemma client_tx_le E P sign payer bh cu i s : (forall m k, length (sign m k) = 64%nat) -> length bh = 32%nat ->
  let x := wire_of E P i in
  (length (x_metas x) <= 100)%nat -> len (x_data x) < 16384 ->
  Meta s true true ∈ x_metas x \/ Meta s true false ∈ x_metas x ->
  (forall m, m ∈ x_metas x -> meta_signer m = true -> meta_key m = s) ->
  (length (client_tx E P sign payer bh cu i) <=
    138 + 33 * length (x_metas x) + length (x_data x) + with_limit cu + (if (payer =? s)%Z then 0 else 96))%nat.
Proof.
  intros Hs Hb x Hm Hd Hin Hsig. unfold client_tx. fold x. rewrite transaction_size by done.
  set (ixs := _ ++ [x]). set (ms := message_metas payer ixs).
  assert (forall m, m ∈ ms -> m = Meta payer true true \/ m ∈ x_metas x \/ m = Meta (x_prog x) false false \/ (cu <> None /\ m = Meta (compute_budget_id P) false false)) as Hms.
  { intros m Hm'. subst ms ixs. unfold message_metas in Hm'. destruct cu; simpl in Hm'; rewrite ?app_nil_r in Hm'.
    - apply elem_of_cons in Hm' as [->|Hm']; [by left|]. apply elem_of_cons in Hm' as [->|Hm']; [by right; right; right|].
      apply elem_of_app in Hm' as [?|?%elem_of_list_singleton]; tauto.
    - apply elem_of_cons in Hm' as [->|Hm']; [by left|]. apply elem_of_app in Hm' as [?|?%elem_of_list_singleton]; tauto. }
  assert (s ∈ map meta_key (x_metas x)) as Hsin.
  { apply elem_of_list_fmap. destruct Hin as [Hq|Hq]; (eexists; split; [|exact Hq]; reflexivity). }
  set (l1 := (if payer =? s then [s] else [payer; s]) : list key).
  assert (length (List.filter (is_signer ms) (key_table ms)) <= length l1)%nat as Hsg.
  { apply signers_le. intros m Hm' Hb'. destruct (Hms m Hm') as [->|[Hx|[->|[_ ->]]]]; try discriminate Hb'.
    - subst l1. simpl. destruct (Z.eqb_spec payer s) as [->|]; left.
    - rewrite (Hsig m Hx Hb'). subst l1. destruct (payer =? s); repeat constructor. }
  set (l2 := (if payer =? s then [] else [payer]) ++ match cu with Some _ => [compute_budget_id P] | None => [] end ++ x_prog x :: map meta_key (x_metas x)).
  assert (length (firsts (map meta_key ms)) <= length l2)%nat as Hk.
  { apply firsts_le. intros k (m & -> & Hm')%elem_of_list_fmap. subst l2. rewrite !elem_of_app, elem_of_cons.
    destruct (Hms m Hm') as [->|[Hx|[->|[Hc ->]]]]; simpl.
    - destruct (Z.eqb_spec payer s) as [->|]; [by right; right; right|]. left. left.
    - right. right. right. apply elem_of_list_fmap. by exists m.
    - right. right. by left.
    - right. left. destruct cu; [left|done]. }
  assert (length l1 <= 2)%nat as Hl1 by (subst l1; destruct (payer =? s); simpl; lia).
  assert (length l2 <= 103)%nat as Hl2. { subst l2. rewrite !app_length. cbn [length]. rewrite map_length. destruct (payer =? s), cu; simpl; lia. }
  rewrite (compact_small (Z.of_nat (length (List.filter _ _)))) by (clear - Hsg Hl1; lia).
  rewrite (compact_small (Z.of_nat (length (firsts _)))) by (clear - Hk Hl2; lia).
  assert (length (compact (len ixs)) = 1)%nat as -> by (subst ixs; by destruct cu).
  assert (sizes ixs <= match cu with Some _ => 8 | None => 0 end + 4 + length (x_metas x) + length (x_data x))%nat as Hz.
  { pose proof (compact_le _ Hd). assert (length (compact (len (x_metas x))) = 1)%nat as Hc by (apply compact_small; unfold len; lia).
    subst ixs. destruct cu; simpl; unfold ix_size; fold x; rewrite Hc; simpl; lia. }
  subst l1 l2. rewrite !app_length in Hk. cbn [length] in Hk. rewrite map_length in Hk. unfold with_limit.
  clear - Hsg Hk Hz. destruct (payer =? s), cu; cbn [length] in *; lia.
Qed.

(** The claim's keys apart from the recipient, who may be the claimer. *)
Definition claim_keys (E : env) (P : addresses) (a : claim_accs) : list key :=
  [la_claimer a; la_recipient_ata a; la_treasury a; la_mint a; la_campaign a; la_vault a; la_receipt a; tprog_id E (la_tp a);
   assoc_token_id P; la_chainlink a; la_feed a; system_id P; merkle_id P].
Ltac find := solve [repeat first [apply elem_of_list_here | apply elem_of_list_further]].
Lemma claim_tx_ge E P sign payer bh cu a i am pf l : (forall m k, length (sign m k) = 64%nat) -> length bh = 32%nat ->
  forallb is_hash pf = true -> NoDup l ->
  (forall k, k ∈ l -> k = la_recipient a \/ k ∈ claim_keys E P a \/ (cu <> None /\ k = compute_budget_id P)) ->
  (142 + 32 * length l + 32 * length pf + match cu with Some _ => 8 | None => 0 end <= length (client_tx E P sign payer bh cu (IM (MClaim a i am pf))))%nat.
Proof.
  intros Hs Hb Hp Hn Hl. unfold client_tx. rewrite transaction_size by done.
  set (x := wire_of E P _). set (ixs := _ ++ [x]). set (ms := message_metas payer ixs).
  pose proof (signers_ge payer ixs) as Hsg. fold ms in Hsg.
  assert (length l <= length (firsts (map meta_key ms)))%nat as Hk.
  { apply firsts_ge; [done|]. intros k Hk. apply Hl in Hk. apply elem_of_list_fmap.
    assert (forall b c, Meta k b c ∈ x_metas x ++ [Meta (x_prog x) false false] -> exists y, k = meta_key y /\ y ∈ ms) as Hg.
    { intros b c Hin. exists (Meta k b c). split; [done|]. subst ms ixs. unfold message_metas. right.
      destruct cu; cbn [app map List.concat]; rewrite ?app_nil_r; [apply elem_of_app; right|]; exact Hin. }
    destruct Hk as [->|[Hk|[Hc ->]]].
    - apply (Hg false false). right. left.
    - unfold claim_keys in Hk. subst x. cbn [wire_of x_metas x_prog merkle_metas app] in Hg. unfold signer_w, acc_r, acc_w in Hg.
      repeat (apply elem_of_cons in Hk as [->|Hk]; [first
        [apply (Hg true true); find | apply (Hg false true); find | apply (Hg false false); find]|]).
      by apply elem_of_nil in Hk.
    - destruct cu; [|done]. exists (Meta (compute_budget_id P) false false). split; [done|]. subst ms ixs. right. left. }
  pose proof (compact_ge (Z.of_nat (length (List.filter (is_signer ms) (key_table ms))))) as C1.
  pose proof (compact_ge (Z.of_nat (length (firsts (map meta_key ms))))) as C2.
  pose proof (compact_ge (len ixs)) as C3.
  assert (40 + 32 * length pf + match cu with Some _ => 8 | None => 0 end <= sizes ixs)%nat as Hz.
  { pose proof (compact_ge (len (x_data x))) as C4.
    assert (length (x_data x) = 24 + 32 * length pf)%nat as Hd.
    { subst x. cbn [wire_of x_data merkle_call_of]. unfold merkle_data. rewrite app_length, merkle_disc_length. cbn [merkle_args].
      rewrite claim_args_length by done. lia. }
    assert (ix_size x = 15 + length (compact (len (x_data x))) + length (x_data x))%nat as Hx.
    { unfold ix_size. subst x. cbn [wire_of x_metas merkle_metas length]. reflexivity. }
    subst ixs. destruct cu; cbn [app sizes foldr]; rewrite Hx, Hd; [change (ix_size (budget_ix P z)) with 8%nat|]; clear - C4; lia. }
  clear - Hsg Hk C1 C2 C3 Hz. destruct cu; lia.
Qed.

(** Each instruction has one signer, its first account. *)
Lemma wire_signer E P i : exists s b rest, x_metas (wire_of E P i) = Meta s true b :: rest /\ Forall (fun m => meta_signer m = false) rest /\
  (length rest <= 20)%nat.
Proof.
  destruct i as [[]|[]]; cbn [wire_of x_metas lockup_metas merkle_metas create_metas withdraw_metas signer_w signer_r acc_w acc_r];
    (eexists _, _, _; split; [reflexivity|]; split; [repeat constructor|cbn [length]; lia]).
Qed.
(** The data of an instruction that can succeed, claims aside. *)
Lemma wire_data E P sg i w w' evs : exec E sg i w = Ok (w', evs) -> (forall a ix am pf, i <> IM (MClaim a ix am pf)) ->
  (length (x_data (wire_of E P i)) <= 167)%nat.
Proof.
  intros Hx Hc. destruct i as [ix|ix]; cbn [wire_of x_data].
  - unfold lockup_data. rewrite app_length, lockup_disc_length.
    destruct ix; cbn [lockup_call_of lockup_args]; rewrite ?three_keys_length, ?ts_args_length, ?dur_args_length;
      cbn [c_u64 c_uint enc]; rewrite ?le_bytes_length; cbn [length]; lia.
  - unfold merkle_data. rewrite app_length, merkle_disc_length.
    destruct ix as [| a g |a ix am pf| |]; cbn [merkle_call_of merkle_args]; rewrite ?three_keys_length;
      cbn [c_u64 c_uint enc]; rewrite ?le_bytes_length; cbn [length]; [lia| | |lia|lia].
    + cbn [exec] in Hx. destruct (C45_create_limits E sg a g w w' evs Hx) as (Hn & Hi & _).
      apply merkle_exec_effect in Hx as [Hok _]. cbn [merkle_ix_ok] in Hok.
      assert (length (g_root g) = 32)%nat as Hr.
      { apply is_hash_32. repeat (apply andb_prop in Hok as [Hok ?]). assumption. }
      rewrite campaign_args_length by exact Hr. lia.
    + exfalso. by apply (Hc a ix am pf).
Qed.
Lemma claim_data E P a i am pf : forallb is_hash pf = true -> length (x_data (wire_of E P (IM (MClaim a i am pf)))) = (24 + 32 * length pf)%nat.
Proof.
  intros Hp. cbn [wire_of x_data merkle_call_of]. unfold merkle_data. rewrite app_length, merkle_disc_length. cbn [merkle_args].
  rewrite claim_args_length by done. lia.
Qed.
Lemma claim_metas_shape E P a i am pf : exists rest, x_metas (wire_of E P (IM (MClaim a i am pf))) = Meta (la_claimer a) true true :: rest /\ length rest = 12%nat.
Proof. eexists. split; reflexivity. Qed.
Lemma client_tx_bound E P sign payer bh cu i : (forall m k, length (sign m k) = 64%nat) -> length bh = 32%nat ->
  let x := wire_of E P i in len (x_data x) < 16384 ->
  (length (client_tx E P sign payer bh cu i) <= 138 + 33 * length (x_metas x) + length (x_data x) + with_limit cu +
    match x_metas x with m :: _ => if (payer =? meta_key m)%Z then 0 else 96 | [] => 96 end)%nat.
Proof.
  intros Hs Hb x Hd. destruct (wire_signer E P i) as (s & b & rest & Hm & Hr & Hl). fold x in Hm.
  pose proof (client_tx_le E P sign payer bh cu i s Hs Hb) as Hle. cbv zeta in Hle. fold x in Hle. rewrite Hm in Hle |- *. apply Hle.
  - cbn [length]. lia.
  - done.
  - destruct b; [left; left|right; left].
  - intros m [->|Hin]%elem_of_cons Hsg; [done|]. rewrite Forall_forall in Hr. rewrite (Hr m Hin) in Hsg. discriminate Hsg.
Qed.

(** ** C78 *)
Section fits.
  (** Any addresses, signature function and block hash. *)
  Context (E : env) (P : addresses) (sign : bytes -> key -> bytes) (bh : bytes).
  Context (Hsign : forall m k, length (sign m k) = 64%nat) (Hbh : length bh = 32%nat).
  (** The transaction with this one instruction, paid by [payer] and with a compute limit if there is one, is small enough. *)
  Definition fits (payer : key) (cu : option Z) (i : any_ix) : Prop := len (client_tx E P sign payer bh cu i) <= PACKET_DATA_SIZE.

  (** Every instruction that can succeed, claims aside, fits whoever pays for the transaction and with any compute limit. *)
  Theorem C78_fits : forall sg i w w' evs payer cu, exec E sg i w = Ok (w', evs) ->
    (forall a ix am pf, i <> IM (MClaim a ix am pf)) -> fits payer cu i.
  Proof using Hsign Hbh.
    intros sg i w w' evs payer cu Hx Hc. unfold fits, PACKET_DATA_SIZE. pose proof (wire_data E P sg i w w' evs Hx Hc) as Hd.
    pose proof (client_tx_bound E P sign payer bh cu i Hsign Hbh) as Hle. cbv zeta in Hle.
    destruct (wire_signer E P i) as (s & b & rest & Hm & _ & Hl). rewrite Hm in Hle. unfold len in *. cbn [length] in Hle.
    specialize (Hle ltac:(lia)). unfold with_limit in Hle. clear - Hd Hle Hl. destruct (_ =? _), cu; lia.
  Qed.
  Lemma fits_upto i payer cu m rest d : x_metas (wire_of E P i) = m :: rest -> length (x_data (wire_of E P i)) = d -> Z.of_nat d < 16384 ->
    (171 + 33 * length rest + d + with_limit cu + (if (payer =? meta_key m)%Z then 0 else 96) <= 1232)%nat -> fits payer cu i.
  Proof using Hsign Hbh.
    intros Hm Hd Hlt Hle. unfold fits, PACKET_DATA_SIZE. pose proof (client_tx_bound E P sign payer bh cu i Hsign Hbh) as Hb. cbv zeta in Hb.
    unfold len in *. rewrite Hm, Hd in Hb. cbn [length] in Hb. specialize (Hb ltac:(lia)). lia.
  Qed.
  (** So does every claim with a proof of at most 15 hashes; of at most 18 if the claimer pays for the transaction; of at most
      20 if the claimer pays and there is no compute limit. *)
  Theorem C78_claim_fits : forall payer cu a i am pf, forallb is_hash pf = true ->
    (length pf <= 15)%nat \/ (payer = la_claimer a /\ (length pf <= 18)%nat) \/ (payer = la_claimer a /\ cu = None /\ (length pf <= 20)%nat) ->
    fits payer cu (IM (MClaim a i am pf)).
  Proof using Hsign Hbh.
    intros payer cu a i am pf Hp Hn. destruct (claim_metas_shape E P a i am pf) as (rest & Hm & Hr).
    apply (fits_upto _ _ _ _ _ _ Hm (claim_data E P a i am pf Hp)); [clear - Hn; lia|]. rewrite Hr. clear - Hn.
    cbn [meta_key]. destruct (Z.eqb_spec payer (la_claimer a)) as [He|He]; destruct cu; cbn [with_limit]; cbv iota;
      destruct Hn as [Hn|[[Hq Hn]|(Hq & Hc & Hn)]]; try discriminate Hc; try destruct (He Hq); clear - Hn; lia.
  Qed.
  (** These bounds are exact when the accounts are different. *)
  Theorem C78_claim_limit : forall a i am pf, forallb is_hash pf = true -> NoDup (la_recipient a :: claim_keys E P a) ->
    (fits (la_claimer a) None (IM (MClaim a i am pf)) <-> (length pf <= 20)%nat) /\
    (forall u, ~ compute_budget_id P ∈ la_recipient a :: claim_keys E P a ->
       (fits (la_claimer a) (Some u) (IM (MClaim a i am pf)) <-> (length pf <= 18)%nat)).
  Proof using Hsign Hbh.
    intros a i am pf Hp Hnd. split; [|intros u Hb]; (split; [|intros ?; apply C78_claim_fits; [done|tauto]]); unfold fits, PACKET_DATA_SIZE, len; intros Hf.
    - pose proof (claim_tx_ge E P sign (la_claimer a) bh None a i am pf _ Hsign Hbh Hp Hnd) as Hge.
      specialize (Hge ltac:(intros k [->|Hk]%elem_of_cons; [by left|by right; left])). cbn [claim_keys length] in Hge. lia.
    - pose proof (claim_tx_ge E P sign (la_claimer a) bh (Some u) a i am pf (compute_budget_id P :: la_recipient a :: claim_keys E P a) Hsign Hbh Hp) as Hge.
      specialize (Hge ltac:(by apply NoDup_cons)).
      specialize (Hge ltac:(intros k [->|[->|Hk]%elem_of_cons]%elem_of_cons; [by right; right|by left|by right; left])). cbn [claim_keys length] in Hge. lia.
  Qed.
  (** No claim with a longer proof than 21 hashes fits, whoever pays and with or without a compute limit. *)
  Theorem C78_claim_too_long : forall payer cu a i am pf, forallb is_hash pf = true -> NoDup (claim_keys E P a) -> (21 < length pf)%nat ->
    ~ fits payer cu (IM (MClaim a i am pf)).
  Proof using Hsign Hbh.
    intros payer cu a i am pf Hp Hnd Hl. unfold fits, PACKET_DATA_SIZE, len. intros Hf.
    pose proof (claim_tx_ge E P sign payer bh cu a i am pf _ Hsign Hbh Hp Hnd) as Hge.
    specialize (Hge ltac:(intros k Hk; by right; left)). cbn [claim_keys length] in Hge. destruct cu; lia.
  Qed.
  (** A campaign made with the client's tree helper: with up to 2^18 entries every one of them can be claimed in one
      transaction of the claimer's, with up to 2^15 in one that anybody pays for. *)
  Theorem C78_campaign_size : forall es e a cu payer, hash_ok (keccak E) -> e ∈ es ->
    (length es <= 2 ^ 15)%nat \/ (payer = la_claimer a /\ (length es <= 2 ^ 18)%nat) ->
    fits payer cu (IM (MClaim a (e_index e) (e_amount e) (get_proof (keccak E) es e))).
  Proof using Hsign Hbh.
    intros es e a cu payer HH Hin Hn. apply C78_claim_fits.
    - apply is_hash_proof. by apply get_proof_climbs.
    - pose proof (C77_proof_length (keccak E) es e) as Hl. destruct Hn as [Hn|[-> Hn]].
      + apply Nat.log2_up_le_mono in Hn. rewrite Nat.log2_up_pow2 in Hn by lia. left. lia.
      + apply Nat.log2_up_le_mono in Hn. rewrite Nat.log2_up_pow2 in Hn by lia. right. left. split; [done|lia].
  Qed.
End fits.

(** The accounts in a message are the ones the model's instructions work on: declared writable exactly as in C62, and the
    only signature an instruction needs is that of its first account, without which it fails. *)
Lemma map_filter_in (f : meta -> bool) ms k : k ∈ map meta_key (List.filter f ms) <-> exists m, m ∈ ms /\ f m = true /\ meta_key m = k.
Proof.
  rewrite elem_of_list_In, in_map_iff. split.
  - intros (m & Hk & [Hin Hf]%filter_In). exists m. split; [by apply elem_of_list_In|]. split; [exact Hf|exact Hk].
  - intros (m & Hin & Hf & Hk). exists m. split; [exact Hk|]. apply filter_In. split; [by apply elem_of_list_In|exact Hf].
Qed.
Theorem C78_writable : forall E P i k, k ∈ writable_of i <-> exists m, m ∈ x_metas (wire_of E P i) /\ meta_writable m = true /\ meta_key m = k.
Proof.
  intros E P i k. rewrite <- map_filter_in.
  assert (writable_of i = map meta_key (List.filter meta_writable (x_metas (wire_of E P i)))) as Hp by (destruct i as [[]|[]]; reflexivity).
  by rewrite Hp.
Qed.
Lemma first_check {A B} sg k (f : unit -> res A) (r : res B) x : (exists g, r = rbind (rbind (check_signer sg k) f) g) -> r = Ok x -> k ∈ sg.
Proof.
  intros (g & ->) H. apply rbind_ok in H as (y & H & _). apply rbind_ok in H as (z & H & _).
  unfold check_signer in H. by case_bool_decide.
Qed.
Lemma first_check1 {B} sg k (f : unit -> res B) x : rbind (check_signer sg k) f = Ok x -> k ∈ sg.
Proof. intros H. apply rbind_ok in H as (z & H & _). unfold check_signer in H. by case_bool_decide. Qed.
Theorem C78_signers : forall E P sg i w w' evs m, exec E sg i w = Ok (w', evs) -> m ∈ x_metas (wire_of E P i) ->
  meta_signer m = true -> meta_key m ∈ sg.
Proof.
  intros E P sg i w w' evs m Hx Hm Hs.
  destruct (wire_signer E P i) as (s & b & rest & Hl & Hr & _). rewrite Hl in Hm.
  apply elem_of_cons in Hm as [->|Hm]; [|rewrite Forall_forall in Hr; rewrite (Hr m Hm) in Hs; discriminate Hs]. cbn [meta_key].
  clear Hr Hs. destruct i as [ix|ix]; cbn [exec wire_of x_metas] in *.
  - unfold lockup_exec in Hx. apply rbind_ok in Hx as (x1 & _ & Hx).
    destruct ix; cbn [lockup_metas create_metas withdraw_metas signer_w signer_r] in Hl; injection Hl as <- _ _.
    + unfold initialize in Hx. exact (first_check1 _ _ _ _ Hx).
    + unfold create_with_timestamps, create_accounts in Hx. apply (first_check _ _ _ _ _ (ex_intro _ _ eq_refl) Hx).
    + unfold create_with_durations, create_accounts in Hx. apply (first_check _ _ _ _ _ (ex_intro _ _ eq_refl) Hx).
    + unfold renounce in Hx. exact (first_check1 _ _ _ _ Hx).
    + unfold Lockup.cancel in Hx. exact (first_check1 _ _ _ _ Hx).
    + unfold withdraw, withdraw_accounts in Hx. apply (first_check _ _ _ _ _ (ex_intro _ _ eq_refl) Hx).
    + unfold withdraw_max, withdraw_accounts in Hx. apply (first_check _ _ _ _ _ (ex_intro _ _ eq_refl) Hx).
    + unfold lockup_collect_fees in Hx. exact (first_check1 _ _ _ _ Hx).
  - unfold merkle_exec in Hx. apply rbind_ok in Hx as (x1 & _ & Hx).
    destruct ix; cbn [merkle_metas signer_w signer_r] in Hl; injection Hl as <- _ _.
    + unfold m_initialize in Hx. exact (first_check1 _ _ _ _ Hx).
    + unfold create_campaign in Hx. exact (first_check1 _ _ _ _ Hx).
    + unfold claim in Hx. exact (first_check1 _ _ _ _ Hx).
    + unfold clawback in Hx. exact (first_check1 _ _ _ _ Hx).
    + unfold merkle_collect_fees in Hx. exact (first_check1 _ _ _ _ Hx).
Qed.

(** ** Non-vacuity: the transactions of the example run. *)
Definition P0 : addresses := Addresses 101 102 103 104 105 106.
Definition sign0 : bytes -> key -> bytes := fun _ _ => List.repeat 7 64.
Definition hash0 : bytes := List.repeat 9 32.
Definition long_claim (n : nat) : any_ix := IM (MClaim (claim_by kOther 1500 0 0 kRecipient) 0 500 (List.repeat leafB n)).
Definition size0 (payer : key) (cu : option Z) (i : any_ix) : Z := len (client_tx E0 P0 sign0 payer hash0 cu i).
Definition distinct (l : list key) : bool := bool_decide (length (firsts l) = length l).
Example C78_example :
  size0 kSender (Some 1400000) (IL (LCreateTs (create_for 1) dep1)) = 879 /\
  size0 kOther (Some 1400000) (IL (LWithdraw (withdraw_to 1 kRecipient) 200)) = 721 /\
  map (fun n => size0 kOther (Some 1400000) (long_claim n)) [2; 15; 18; 19]%nat = [694; 1111; 1207; 1239] /\
  map (fun n => size0 kOther None (long_claim n)) [20; 21]%nat = [1231; 1263] /\
  map (fun n => size0 kSender (Some 1400000) (long_claim n)) [15; 16]%nat = [1207; 1239] /\
  distinct (compute_budget_id P0 :: kRecipient :: claim_keys E0 P0 (claim_by kOther 1500 0 0 kRecipient)) = true.
Proof. split_and!; vm_compute; reflexivity. Qed.
