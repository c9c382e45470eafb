(** Address derivation inputs are unambiguous (C44). *)
From Verif Require Export Facts Keccak.

(** ** Little-endian encodings *)
Lemma le_val_bytes n x : 0 <= x < 256 ^ Z.of_nat n -> le_val (le_bytes n x) = x.
Proof.
  revert x. induction n as [|n IH]; intros x Hx.
  - simpl in *. lia.
  - rewrite Nat2Z.inj_succ, Z.pow_succ_r in Hx by lia. simpl. rewrite IH.
    + pose proof (Z.div_mod x 256). lia.
    + split; [apply Z.div_pos; lia|]. apply Z.div_lt_upper_bound; lia.
Qed.
Lemma le_bytes_inj n x y : 0 <= x < 256 ^ Z.of_nat n -> 0 <= y < 256 ^ Z.of_nat n -> le_bytes n x = le_bytes n y -> x = y.
Proof. intros Hx Hy He. rewrite <- (le_val_bytes n x), <- (le_val_bytes n y) by done. by rewrite He. Qed.
Lemma key_bytes_inj x y : key_ok x -> key_ok y -> key_bytes x = key_bytes y -> x = y.
Proof. intros Hx Hy. apply le_bytes_inj; exact Hx || exact Hy. Qed.
Lemma le16_inj x y : 0 <= x <= U128_MAX -> 0 <= y <= U128_MAX -> le_bytes 16 x = le_bytes 16 y -> x = y.
Proof. intros Hx Hy. apply le_bytes_inj; (change (256 ^ Z.of_nat 16) with (U128_MAX + 1); lia). Qed.
Lemma le8_inj x y : 0 <= x <= U64_MAX -> 0 <= y <= U64_MAX -> le_bytes 8 x = le_bytes 8 y -> x = y.
Proof. intros Hx Hy. apply le_bytes_inj; (change (256 ^ Z.of_nat 8) with (U64_MAX + 1); lia). Qed.
Lemma le4_inj x y : 0 <= x <= 4294967295 -> 0 <= y <= 4294967295 -> le_bytes 4 x = le_bytes 4 y -> x = y.
Proof. intros Hx Hy. apply le_bytes_inj; (change (256 ^ Z.of_nat 4) with (4294967295 + 1); lia). Qed.
Lemma key_bytes_length k : length (key_bytes k) = 32%nat.
Proof. apply le_bytes_length. Qed.

(** ** The string that is hashed *)
Definition seed_string (seeds : list bytes) (bump : Z) : bytes := List.concat seeds ++ [bump].
(** Two different inputs with the same derived address. *)
Definition collides (E : env) (p : program) (x y : bytes) : Prop :=
  x <> y /\ exists k, pda_hash E p x = Some k /\ pda_hash E p y = Some k.

Section cpa.
Local Transparent create_program_address find_program_address ata_address.
Lemma cpa_hash E p seeds b k : create_program_address E p seeds b = Some k -> pda_hash E p (seed_string seeds b) = Some k.
Proof. unfold create_program_address, seed_string. by destruct (forallb _ _ && _). Qed.
Lemma cpa_cases E p s b s' b' k : create_program_address E p s b = Some k -> create_program_address E p s' b' = Some k ->
  seed_string s b = seed_string s' b' \/ collides E p (seed_string s b) (seed_string s' b').
Proof.
  intros H1%cpa_hash H2%cpa_hash. destruct (decide (seed_string s b = seed_string s' b')) as [?|Hne]; [by left|].
  right. split; [done|]. by exists k.
Qed.
End cpa.

(** ** Account kinds *)
Inductive lockup_address :=
| ATreasury | ACollectionData | ACollectionMint
| AStreamNft (sender salt : Z) | AStream (nft_mint : key).
Definition lockup_address_ok (x : lockup_address) : Prop :=
  match x with
  | AStreamNft sender salt => key_ok sender /\ 0 <= salt <= U128_MAX
  | AStream m => key_ok m
  | _ => True
  end.
Definition lockup_seeds (x : lockup_address) : list bytes :=
  match x with
  | ATreasury => [s_TREASURY]
  | ACollectionData => [s_NFT_COLLECTION_DATA]
  | ACollectionMint => [s_NFT_COLLECTION_MINT]
  | AStreamNft sender salt => nft_mint_seeds sender salt
  | AStream m => stream_seeds m
  end.
Inductive merkle_address :=
| MTreasury
| MCampaign (creator : key) (root : bytes) (start expiration : Z) (name : bytes) (mintk : key)
| MReceipt (campaign : key) (index : Z).
Definition merkle_address_ok (x : merkle_address) : Prop :=
  match x with
  | MTreasury => True
  | MCampaign cr root st ex name m => key_ok cr /\ length root = 32%nat /\ 0 <= st <= U64_MAX /\ 0 <= ex <= U64_MAX /\ key_ok m
  | MReceipt c i => key_ok c /\ 0 <= i <= 4294967295
  end.
Definition merkle_seeds (x : merkle_address) : list bytes :=
  match x with
  | MTreasury => [s_TREASURY]
  | MCampaign cr root st ex name m => campaign_seeds cr root st ex name m
  | MReceipt c i => receipt_seeds c i
  end.

Lemma app_inj_len {A} (a b c d : list A) : length a = length c -> a ++ b = c ++ d -> a = c /\ b = d.
Proof. intros Hl He. by apply app_inj_1. Qed.
Lemma app_inj_len_r {A} (a b c d : list A) : length b = length d -> a ++ b = c ++ d -> a = c /\ b = d.
Proof. intros Hl He. by apply app_inj_2. Qed.
Lemma seed_string_inj s b s' b' : seed_string s b = seed_string s' b' -> List.concat s = List.concat s' /\ b = b'.
Proof. unfold seed_string. intros H. apply app_inj_len_r in H as [? H]; [|done]. split; [done|congruence]. Qed.

Lemma lockup_seeds_length x : length (List.concat (lockup_seeds x)) =
  match x with ATreasury => 8 | ACollectionData | ACollectionMint => 19 | AStreamNft _ _ => 63 | AStream _ => 43 end%nat.
Proof.
  destruct x; unfold lockup_seeds, nft_mint_seeds, stream_seeds; cbn [List.concat];
    rewrite ?app_length, ?key_bytes_length, ?le_bytes_length; reflexivity.
Qed.
Lemma lockup_seeds_inj x y b b' : lockup_address_ok x -> lockup_address_ok y ->
  seed_string (lockup_seeds x) b = seed_string (lockup_seeds y) b' -> x = y /\ b = b'.
Proof.
  intros Hx Hy He. apply seed_string_inj in He as [He ->]. split; [|done].
  assert (Hlen : length (List.concat (lockup_seeds x)) = length (List.concat (lockup_seeds y))) by by rewrite He.
  rewrite !lockup_seeds_length in Hlen.
  destruct x, y; try done; try discriminate Hlen.
  - unfold lockup_seeds, nft_mint_seeds in He. cbn [List.concat] in He. rewrite !app_nil_r in He.
    apply app_inj_len in He as [_ He]; [|done]. apply app_inj_len in He as [He1 He2]; [|by rewrite !key_bytes_length].
    destruct Hx, Hy. f_equal; [by apply key_bytes_inj|by apply le16_inj].
  - unfold lockup_seeds, stream_seeds in He. cbn [List.concat] in He. rewrite !app_nil_r in He.
    apply app_inj_len in He as [_ He]; [|done]. f_equal. by apply key_bytes_inj.
Qed.

Lemma merkle_seeds_inj x y b b' : merkle_address_ok x -> merkle_address_ok y ->
  seed_string (merkle_seeds x) b = seed_string (merkle_seeds y) b' -> x = y /\ b = b'.
Proof.
  intros Hx Hy He. apply seed_string_inj in He as [He ->]. split; [|done].
  assert (Hhd : firstn 3 (List.concat (merkle_seeds x)) = firstn 3 (List.concat (merkle_seeds y))) by by rewrite He.
  destruct x as [|cr root st ex nm m|c i], y as [|cr' root' st' ex' nm' m'|c' i'];
    try done; try (unfold merkle_seeds, campaign_seeds, receipt_seeds in Hhd; vm_compute in Hhd; discriminate).
  - unfold merkle_seeds, campaign_seeds in He. cbn [List.concat] in He. rewrite !app_nil_r in He.
    destruct Hx as (Hc & Hr & Hs & He1 & Hm), Hy as (Hc' & Hr' & Hs' & He1' & Hm').
    apply app_inj_len in He as [_ He]; [|done].
    apply app_inj_len in He as [Hcr He]; [|by rewrite !key_bytes_length].
    apply app_inj_len in He as [Hroot He]; [|by rewrite Hr, Hr'].
    apply app_inj_len in He as [Hst He]; [|by rewrite !le_bytes_length].
    apply app_inj_len in He as [Hex He]; [|by rewrite !le_bytes_length].
    apply app_inj_len_r in He as [Hnm Hmm]; [|by rewrite !key_bytes_length].
    f_equal; [by apply key_bytes_inj|done|by apply le8_inj|by apply le8_inj|done|by apply key_bytes_inj].
  - unfold merkle_seeds, receipt_seeds in He. cbn [List.concat] in He. rewrite !app_nil_r in He.
    destruct Hx, Hy. apply app_inj_len in He as [_ He]; [|done].
    apply app_inj_len in He as [Hc He]; [|by rewrite !key_bytes_length].
    f_equal; [by apply key_bytes_inj|by apply le4_inj].
Qed.

(** Associated token accounts and Metaplex accounts. *)
Lemma ata_seeds_inj E o m tp o' m' tp' b b' : key_ok o -> key_ok o' -> key_ok m -> key_ok m' ->
  key_ok (tprog_id E tp) -> key_ok (tprog_id E tp') ->
  seed_string (ata_seeds E o m tp) b = seed_string (ata_seeds E o' m' tp') b' ->
  o = o' /\ m = m' /\ tprog_id E tp = tprog_id E tp' /\ b = b'.
Proof.
  intros Ho Ho' Hm Hm' Ht Ht' He. apply seed_string_inj in He as [He ->]. unfold ata_seeds in He. cbn [List.concat] in He.
  rewrite !app_nil_r in He. apply app_inj_len in He as [H1 He]; [|by rewrite !key_bytes_length].
  apply app_inj_len in He as [H2 H3]; [|by rewrite !key_bytes_length].
  split_and!; try done; by apply key_bytes_inj.
Qed.
Inductive metaplex_address := XMetadata (m : key) | XEdition (m : key).
Definition metaplex_seeds (E : env) (x : metaplex_address) : list bytes :=
  match x with XMetadata m => metadata_seeds E m | XEdition m => edition_seeds E m end.
Definition metaplex_address_ok (x : metaplex_address) : Prop := match x with XMetadata m | XEdition m => key_ok m end.
Lemma metaplex_seeds_inj E x y b b' : metaplex_address_ok x -> metaplex_address_ok y ->
  seed_string (metaplex_seeds E x) b = seed_string (metaplex_seeds E y) b' -> x = y /\ b = b'.
Proof.
  intros Hx Hy He. apply seed_string_inj in He as [He ->]. split; [|done].
  assert (Hlen : length (List.concat (metaplex_seeds E x)) = length (List.concat (metaplex_seeds E y))) by by rewrite He.
  destruct x, y; simpl in Hlen; rewrite ?app_length, ?key_bytes_length, ?le_bytes_length in Hlen; simpl in Hlen; try lia;
    unfold metaplex_seeds, metadata_seeds, edition_seeds in He; cbn [List.concat] in He; rewrite ?app_nil_r in He.
  - apply app_inj_len in He as [_ He]; [|done]. apply app_inj_len in He as [_ He]; [|by rewrite !key_bytes_length].
    f_equal. by apply key_bytes_inj.
  - apply app_inj_len in He as [_ He]; [|done]. apply app_inj_len in He as [_ He]; [|by rewrite !key_bytes_length].
    apply app_inj_len in He as [He _]; [|by rewrite !key_bytes_length]. f_equal. by apply key_bytes_inj.
Qed.
