(** C45: stored accounts round-trip through their bytes and fit their space.
    C50: instruction data determines the instruction and its arguments, which are in range. *)
From Verif Require Export BorshProofs PropCreateLive.

(** ** Specification *)

(** The account types a program tries to load, each with its discriminator check and field decoder. *)
Definition loaders (p : program) : list (bytes -> option adata) :=
  match p with
  | PLockup => [load_as_stream; load_as_treasury PLockup; load_as_collection]
  | PMerkle => [load_as_campaign; load_as_treasury PMerkle; load_as_receipt]
  | _ => []
  end.
(** The results of all of them on the same data. *)
Definition loads_of (p : program) (data : bytes) : list adata := omap (fun f => f data) (loaders p).

(** ** Lengths *)
Lemma key_enc_length k : length (enc c_key k) = 32%nat. Proof. apply le_bytes_length. Qed.
Ltac len := cbn [enc c_map c_pair c_uint c_u8 c_u32 c_u64 c_u128 c_key c_bool c_unit fst snd]; 
  rewrite ?app_length; cbn [enc c_map c_pair c_uint c_u8 c_u32 c_u64 c_u128 c_key c_bool fst snd];
  rewrite ?app_length, ?le_bytes_length; cbn [length].
Lemma amounts_length a : length (enc c_amounts a) = 40%nat.
Proof. unfold c_amounts. len. lia. Qed.
Lemma timestamps_length a : length (enc c_timestamps a) = 24%nat.
Proof. unfold c_timestamps. len. lia. Qed.
Lemma stream_length s : length (enc c_stream s) = 148%nat.
Proof. unfold c_stream. len. rewrite amounts_length, timestamps_length. lia. Qed.
Lemma treasury_length t : length (enc c_treasury t) = 97%nat.
Proof. unfold c_treasury. len. lia. Qed.
Lemma collection_length n : length (enc c_collection n) = 9%nat.
Proof. unfold c_collection. len. lia. Qed.
Lemma campaign_length c : (8 + length (enc c_campaign c))%nat = Z.to_nat (campaign_size c).
Proof. unfold c_campaign, campaign_size. len. unfold c_string, c_hash. len. lia. Qed.

(** ** The fields of reachable accounts are in range *)
Definition collections_ok (w : world) : Prop :=
  forall k n, wdat w !! k = Some (DNftCollection n) -> 0 <= nc_total_supply n <= U64_MAX.
Lemma step_collections E C w a evs w' : env_ok E -> token_sane E w -> step E C w a evs w' -> collections_ok w -> collections_ok w'.
Proof.
  intros HE Hs Hst Hok k n Hk. destruct a as [sg ix|sg ix|].
  - inversion Hst; subst. 
    match goal with H : lockup_exec _ _ _ _ = _ |- _ => apply lockup_exec_effect in H as [_ Heff] end.
    destruct (lockup_collection _ _ _ _ _ _ _ _ Heff Hk) as [[Hk0 _]|[(?&?&?&?&_&_&_&_&Hz)|(a&p&ct&nc&cm&dm&sb&s&nm&c0&c1&F&_&Hk0&_&Hz)]].
    + by eapply Hok.
    + rewrite Hz. unfold U64_MAX. lia.
    + pose proof (Hok _ _ Hk0). pose proof (rf_nc_room _ _ _ _ _ _ _ _ _ _ _ _ _ _ _ _ F). lia.
  - destruct (step_keeps _ _ _ _ _ _ HE Hs Hst) as [Hu _ _ _]. pose proof (u_new _ _ _ _ (Hu eq_refl) _ _ Hk eq_refl). by eapply Hok.
  - destruct (step_keeps _ _ _ _ _ _ HE Hs Hst) as [Hu _ _ _]. pose proof (u_new _ _ _ _ (Hu eq_refl) _ _ Hk eq_refl). by eapply Hok.
Qed.
Lemma reachable_collections E w : env_ok E -> reachable E w -> collections_ok w.
Proof.
  intros HE (tr & w0 & Hg & Hr). induction Hr as [|tr w a evs w' Hr IH Hst].
  - intros k n Hk. by pose proof (g_data _ _ Hg _ _ Hk).
  - eapply step_collections; [done| |exact Hst|done]. eapply run_sane; [done|by apply (g_token _ _ Hg)|exact Hr].
Qed.

Lemma u_ok n m x : m + 1 = 256 ^ Z.of_nat n -> 0 <= x <= m -> val_ok (c_uint n) x = true.
Proof. intros Hm Hx. cbn [c_uint val_ok]. rewrite <- Hm. apply andb_true_intro. split; [apply Z.leb_le|apply Z.ltb_lt]; lia. Qed.
Lemma u8_ok x : 0 <= x <= 255 -> val_ok c_u8 x = true. Proof. by apply u_ok. Qed.
Lemma u64_ok x : 0 <= x <= U64_MAX -> val_ok c_u64 x = true. Proof. by apply u_ok. Qed.
Lemma u128_ok x : 0 <= x <= U128_MAX -> val_ok c_u128 x = true. Proof. by apply u_ok. Qed.
Lemma k_ok x : key_ok x -> val_ok c_key x = true.
Proof. intros H. apply (u_ok _ (KEY_BOUND - 1)); [reflexivity|]. unfold key_ok in H. lia. Qed.
Lemma pair_val {A B} (ca : codec A) (cb : codec B) x y : val_ok ca x = true -> val_ok cb y = true -> val_ok (ca ** cb) (x, y) = true.
Proof. intros Hx Hy. cbn [c_pair val_ok fst snd]. by rewrite Hx, Hy. Qed.

Lemma stream_values E w k s : env_ok E -> inv E w -> wdat w !! k = Some (DStream s) -> val_ok c_stream s = true.
Proof.
  intros HE Hi Hk. pose proof (li_stream _ _ (inv_lockup _ _ Hi) _ _ Hk) as [Hok (Hm & Hse & Hsa) (nft & b & m & au & _ & Hb & _) _].
  apply fpa_cpa in Hb as [_ Hb]. destruct Hok as [[]].
  unfold c_stream. cbn [c_map val_ok]. repeat apply pair_val; first [reflexivity|by apply k_ok|by apply u128_ok|apply u8_ok; lia|apply u64_ok; lia].
Qed.
Lemma treasury_values E p w k t : env_ok E -> treasury_inv E p w k t -> val_ok c_treasury t = true.
Proof.
  intros HE [Ha (H1 & H2 & H3) _]. apply fpa_cpa in Ha as [_ Hb]. unfold c_treasury. cbn [c_map val_ok].
  repeat apply pair_val; [apply u8_ok; lia|by apply k_ok..].
Qed.
Lemma campaign_values E w k c : env_ok E -> campaign_inv E w k c -> val_ok c_campaign c = true.
Proof.
  intros HE [Hok Ha _]. apply fpa_cpa in Ha as [_ Hb]. destruct Hok as [[? ?] ? ? ? ? ? ? ?]. unfold c_campaign. cbn [c_map val_ok].
  repeat apply pair_val; try (by apply k_ok); try (by apply u64_ok); try done. apply u8_ok; lia.
Qed.

(** ** C45 *)
Lemma strip_app p l : strip p (p ++ l) = Some l.
Proof. induction p as [|a p IH]; [done|]. cbn. by rewrite Z.eqb_refl. Qed.
Lemma load_one_ok {A} disc (c : codec A) mk x rest : codec_ok c -> val_ok c x = true ->
  load_one disc c mk ((disc ++ enc c x) ++ rest) = Some (mk x).
Proof. intros Hc Hx. unfold load_one. rewrite <- app_assoc, strip_app. by rewrite (ck_read _ Hc). Qed.

(** Every account of the two programs in every reachable world is stored in bytes that fit the space it was created
    with; reading them back, whatever the bytes behind them, gives the same account, and as no other account type. *)
Theorem C45_roundtrip : forall E w k d p, env_ok E -> reachable E w -> wdat w !! k = Some d -> owner_prog d = Some p ->
  exists data space, account_bytes d = Some data /\ account_space d = Some space /\
    byte_list data /\ Z.of_nat (length data) <= space /\
    forall rest, loads_of p (data ++ rest) = [d].
Proof.
  intros E w k d p HE Hr Hk Hp. pose proof (reachable_inv _ _ HE Hr) as Hi.
  destruct d as [s|t|n|c| |t| | | | | | ]; cbn [owner_prog] in Hp; try discriminate; injection Hp as <-.
  - pose proof (stream_values _ _ _ _ HE Hi Hk) as Hv. eexists _, _. split; [reflexivity|]. split; [reflexivity|].
    split; [apply byte_list_app; split; [repeat constructor; lia|by apply (ck_bytes _ stream_codec_ok)]|].
    split; [rewrite app_length, stream_length; done|]. intros rest. unfold loads_of, loaders. cbn [omap list_omap].
    unfold load_as_stream. rewrite (load_one_ok _ _ DStream) by (apply stream_codec_ok || done). reflexivity.
  - pose proof (treasury_values _ _ _ _ _ HE (li_treasury _ _ (inv_lockup _ _ Hi) _ _ Hk)) as Hv. eexists _, _. split; [reflexivity|]. split; [reflexivity|].
    split; [apply byte_list_app; split; [repeat constructor; lia|by apply (ck_bytes _ treasury_codec_ok)]|].
    split; [rewrite app_length, treasury_length; done|]. intros rest. unfold loads_of, loaders. cbn [omap list_omap].
    unfold load_as_treasury. rewrite (load_one_ok _ _ DLockupTreasury) by (apply treasury_codec_ok || done). reflexivity.
  - assert (Hv : val_ok c_collection n = true).
    { unfold c_collection. cbn [c_map val_ok]. apply pair_val; [apply u64_ok; by apply (reachable_collections _ _ HE Hr _ _ Hk)|].
      destruct (li_coll _ _ (inv_lockup _ _ Hi) _ _ Hk) as [Ha _]. apply fpa_cpa in Ha as [_ ?]. apply u8_ok; lia. }
    eexists _, _. split; [reflexivity|]. split; [reflexivity|].
    split; [apply byte_list_app; split; [repeat constructor; lia|by apply (ck_bytes _ collection_codec_ok)]|].
    split; [rewrite app_length, collection_length; done|]. intros rest. unfold loads_of, loaders. cbn [omap list_omap].
    unfold load_as_collection. rewrite (load_one_ok _ _ DNftCollection) by (apply collection_codec_ok || done). reflexivity.
  - pose proof (mi_campaign _ _ (inv_merkle _ _ Hi) _ _ Hk) as Hc. pose proof (campaign_values _ _ _ _ HE Hc) as Hv.
    eexists _, _. split; [reflexivity|]. split; [reflexivity|].
    split; [apply byte_list_app; split; [repeat constructor; lia|by apply (ck_bytes _ campaign_codec_ok)]|].
    split; [rewrite app_length; change (length disc_Campaign) with 8%nat; rewrite campaign_length;
      pose proof (co_size _ (ci_ok _ _ _ _ Hc)); unfold campaign_size, CAMPAIGN_SPACE in *; lia|].
    intros rest. unfold loads_of, loaders. cbn [omap list_omap].
    unfold load_as_campaign. rewrite (load_one_ok _ _ DCampaign) by (apply campaign_codec_ok || done). reflexivity.
  - eexists _, _. split; [reflexivity|]. split; [reflexivity|]. split; [repeat constructor; lia|]. split; [done|]. done.
  - pose proof (treasury_values _ _ _ _ _ HE (mi_treasury _ _ (inv_merkle _ _ Hi) _ _ Hk)) as Hv. eexists _, _. split; [reflexivity|]. split; [reflexivity|].
    split; [apply byte_list_app; split; [repeat constructor; lia|by apply (ck_bytes _ treasury_codec_ok)]|].
    split; [rewrite app_length, treasury_length; done|]. intros rest. unfold loads_of, loaders. cbn [omap list_omap].
    unfold load_as_treasury. rewrite (load_one_ok _ _ DMerkleTreasury) by (apply treasury_codec_ok || done). reflexivity.
Qed.

(** The space is exact for all accounts of fixed size. *)
Theorem C45_exact_size : forall d data space, account_bytes d = Some data -> account_space d = Some space ->
  (forall c, d <> DCampaign c) -> Z.of_nat (length data) = space.
Proof.
  intros d data space Hd Hs Hn. destruct d as [s|t|n|c| |t| | | | | | ]; cbn [account_bytes account_space] in Hd, Hs; try discriminate;
    apply (inj Some) in Hd as <-; apply (inj Some) in Hs as <-; try (by destruct (Hn c)).
  - by rewrite app_length, stream_length.
  - by rewrite app_length, treasury_length.
  - by rewrite app_length, collection_length.
  - done.
  - by rewrite app_length, treasury_length.
Qed.
(** A campaign fits iff name and IPFS CID together take at most 91 bytes. *)
Theorem C45_campaign_fits : forall c data, account_bytes (DCampaign c) = Some data -> length (c_root c) = 32%nat ->
  (Z.of_nat (length data) <= CAMPAIGN_SPACE <-> Z.of_nat (length (c_name c)) + Z.of_nat (length (c_ipfs c)) <= 91).
Proof.
  intros c data Hd Hr. cbn [account_bytes] in Hd. assert (Hl : length data = (8 + length (enc c_campaign c))%nat)
    by (apply (inj Some) in Hd as <-; by rewrite app_length). rewrite Hl, campaign_length.
  unfold campaign_size, CAMPAIGN_SPACE, CAMPAIGN_IPFS_CID_SIZE, CAMPAIGN_NAME_SIZE. rewrite Hr. lia.
Qed.
Section seeds.
Local Transparent create_program_address find_program_address ata_address.
Lemma cpa_seed_sizes E p s b k : create_program_address E p s b = Some k -> Forall (fun x => Z.of_nat (length x) <= 32) s.
Proof.
  unfold create_program_address. destruct (forallb (fun x => Z.of_nat (length x) <=? 32) s) eqn:Hf; [|done]. intros _. apply Forall_forall. intros x Hx.
  rewrite forallb_forall in Hf. specialize (Hf x (proj1 (elem_of_list_In _ _) Hx)). by apply Z.leb_le in Hf.
Qed.
End seeds.
(** What create_campaign accepts. With the other conditions of [campaign_ready] it does accept these
    (C47_campaign_succeeds). *)
Theorem C45_create_limits : forall E sg a g w w' evs, merkle_exec E sg (MCreateCampaign a g) w = Ok (w', evs) ->
  Z.of_nat (length (g_name g)) <= 32 /\ Z.of_nat (length (g_name g)) + Z.of_nat (length (g_ipfs g)) <= 91 /\
  utf8_valid (g_name g) = true /\ utf8_valid (g_ipfs g) = true.
Proof.
  intros E sg a g w w' evs H. apply merkle_exec_effect in H as [Hix Heff]. inversion Heff; subst.
  match goal with H : find_program_address _ _ _ = _ |- _ => apply fpa_cpa in H as [Ha _]; apply cpa_seed_sizes in Ha end.
  unfold campaign_seeds in Ha. rewrite !Forall_cons in Ha. destruct Ha as (_ & _ & _ & _ & _ & Hn & _ & _).
  cbn [merkle_ix_ok] in Hix. unfold is_hash, is_string in Hix. bools.
  match goal with H : campaign_size _ <= _ |- _ => unfold campaign_size, CAMPAIGN_SPACE, CAMPAIGN_IPFS_CID_SIZE, CAMPAIGN_NAME_SIZE in H; cbn in H end.
  split_and!; try done. lia.
Qed.

(** ** C50 *)

(** The accounts of an instruction: what must be 32-byte keys, besides the arguments. *)
Definition lockup_accounts (ix : lockup_ix) : list key :=
  match ix with
  | LInitialize a _ _ _ => [ia_initializer a; ia_treasury a; ia_nft_collection_data a; ia_edition a; ia_metadata a; ia_mint a; ia_ata a]
  | LCreateTs a _ | LCreateDur a _ =>
      [ca_creator a; ca_creator_ata a; ca_recipient a; ca_sender a; ca_nft_collection_data a; ca_coll_edition a; ca_coll_metadata a;
       ca_coll_mint a; ca_deposit_mint a; ca_nft_mint a; ca_recipient_nft_ata a; ca_stream a; ca_vault a; ca_edition a; ca_metadata a]
  | LRenounce a => [ra_sender a; ra_stream a; ra_nft_mint a]
  | LCancel a => [xa_sender a; xa_sender_ata a; xa_mint a; xa_stream a; xa_vault a; xa_nft_mint a]
  | LWithdraw a _ | LWithdrawMax a =>
      [wa_signer a; wa_stream_recipient a; wa_withdrawal_recipient a; wa_dest a; wa_treasury a; wa_mint a; wa_nft_ata a; wa_stream a;
       wa_vault a; wa_nft_mint a; wa_chainlink a; wa_feed a]
  | LCollectFees a => [fa_collector a; fa_recipient a; fa_treasury a]
  end.
Definition merkle_accounts (ix : merkle_ix) : list key :=
  match ix with
  | MInitialize i t _ _ _ => [i; t]
  | MCreateCampaign a _ => [na_creator a; na_mint a; na_campaign a; na_vault a]
  | MClaim a _ _ _ => [la_claimer a; la_recipient a; la_recipient_ata a; la_treasury a; la_mint a; la_campaign a; la_vault a;
       la_receipt a; la_chainlink a; la_feed a]
  | MClawback a _ => [ba_creator a; ba_recipient a; ba_recipient_ata a; ba_mint a; ba_campaign a; ba_vault a]
  | MCollectFees a => [fa_collector a; fa_recipient a; fa_treasury a]
  end.

Lemma strip_sound p l r : strip p l = Some r -> l = p ++ r.
Proof.
  revert l. induction p as [|a p IH]; intros l H; [by injection H as ->|]. destruct l as [|b l]; [done|]. cbn in H.
  destruct (Z.eqb_spec a b) as [->|]; [|done]. cbn. f_equal. by apply IH.
Qed.
Lemma strip_other p q l : length p = length q -> p <> q -> strip p (q ++ l) = None.
Proof.
  intros Hl Hne. destruct (strip p (q ++ l)) as [r|] eqn:Hs; [|done]. apply strip_sound in Hs.
  apply app_inj_len in Hs as [? _]; [congruence|done].
Qed.
Lemma dispatch_arm {C} (arms : list (arm C)) a l : NoDup (map arm_disc arms) -> Forall (fun d => length d = 8%nat) (map arm_disc arms) ->
  a ∈ arms -> dispatch arms (arm_disc a ++ l) = match arm_dec a l with Some (x, _) => Some x | None => None end.
Proof.
  intros Hn Hl Ha. induction arms as [|a0 arms IH]; [by apply elem_of_nil in Ha|].
  cbn [map] in Hn, Hl. apply NoDup_cons in Hn as [Hn1 Hn]. apply Forall_cons in Hl as [Hl1 Hl]. cbn [dispatch].
  apply elem_of_cons in Ha as [->|Ha]; [by rewrite strip_app|].
  assert (arm_disc a ∈ map arm_disc arms) as Hin by by apply elem_of_list_fmap_1.
  rewrite strip_other; [by apply IH| |intros Heq; apply Hn1; by rewrite Heq].
  rewrite Hl1. symmetry. rewrite Forall_forall in Hl. by apply Hl.
Qed.
Lemma dispatch_sound {C} (arms : list (arm C)) l c : dispatch arms l = Some c ->
  exists a r r', a ∈ arms /\ l = arm_disc a ++ r /\ arm_dec a r = Some (c, r').
Proof.
  induction arms as [|a0 arms IH]; [done|]. cbn [dispatch]. destruct (strip (arm_disc a0) l) as [r|] eqn:Hs.
  - destruct (arm_dec a0 r) as [[x r']|] eqn:Hd; [|done]. intros [= ->]. exists a0, r, r'. split; [apply elem_of_list_here|].
    split; [by apply strip_sound|done].
  - intros H. destruct (IH H) as (a & r & r' & ? & ? & ?). exists a, r, r'. split; [by apply elem_of_list_further|done].
Qed.
Definition len8 (l : list bytes) : bool := forallb (fun d => Nat.eqb (length d) 8) l.
Lemma len8_ok l : len8 l = true -> Forall (fun d => length d = 8%nat) l.
Proof.
  intros H. apply Forall_forall. intros x Hx. unfold len8 in H. rewrite forallb_forall in H.
  apply Nat.eqb_eq, H. by apply elem_of_list_In.
Qed.
Lemma lockup_discs : NoDup (map arm_disc lockup_arms) /\ Forall (fun d => length d = 8%nat) (map arm_disc lockup_arms).
Proof. split; [refine (bool_decide_unpack _ _); vm_compute; exact I|apply len8_ok; vm_compute; reflexivity]. Qed.
Lemma merkle_discs : NoDup (map arm_disc merkle_arms) /\ Forall (fun d => length d = 8%nat) (map arm_disc merkle_arms).
Proof. split; [refine (bool_decide_unpack _ _); vm_compute; exact I|apply len8_ok; vm_compute; reflexivity]. Qed.

Local Opaque discriminator.
Ltac in_list := repeat first [apply elem_of_list_here | apply elem_of_list_further].
Ltac one_arm D c mk v Hc := 
  match goal with |- dispatch ?arms ((discriminator ?n ++ ?args) ++ ?rest) = _ =>
    rewrite <- app_assoc; change (discriminator n) with (arm_disc (mk_arm n c mk));
    rewrite (dispatch_arm arms (mk_arm n c mk)); [|apply D|apply D|];
    [cbn [mk_arm arm_dec]; change args with (enc c v); rewrite (ck_read _ Hc); [reflexivity|assumption || reflexivity]|] end.

(** What a client sends is what the program executes, whatever follows it in the buffer. *)
Theorem C50_lockup_received : forall c rest, lockup_call_ok c = true -> dispatch lockup_arms (lockup_data c ++ rest) = Some c.
Proof.
  intros c rest Hok. unfold lockup_data. destruct c; cbn [lockup_call_ok lockup_args] in *.
  - one_arm lockup_discs c_unit (fun _ : unit => KCancel) tt unit_ok. unfold lockup_arms. in_list.
  - one_arm lockup_discs c_unit (fun _ : unit => KCollectFees) tt unit_ok. unfold lockup_arms. in_list.
  - one_arm lockup_discs c_dur_args KCreateDur q dur_args_ok. unfold lockup_arms. in_list.
  - one_arm lockup_discs c_ts_args KCreateTs p ts_args_ok. unfold lockup_arms. in_list.
  - one_arm lockup_discs c_three_keys (fun '(f, p, c) => KInitialize f p c) (fee_collector, chainlink_program, chainlink_feed) three_keys_ok.
    unfold lockup_arms. in_list.
  - one_arm lockup_discs c_unit (fun _ : unit => KRenounce) tt unit_ok. unfold lockup_arms. in_list.
  - one_arm lockup_discs c_u64 KWithdraw amount (uint_ok 8). unfold lockup_arms. in_list.
  - one_arm lockup_discs c_unit (fun _ : unit => KWithdrawMax) tt unit_ok. unfold lockup_arms. in_list.
  - one_arm lockup_discs c_unit (fun _ : unit => KRefundable) tt unit_ok. unfold lockup_arms. in_list.
  - one_arm lockup_discs c_unit (fun _ : unit => KStatus) tt unit_ok. unfold lockup_arms. in_list.
  - one_arm lockup_discs (c_key ** c_u128) (fun '(s, salt) => KStreamExists s salt) (sender, salt) (pair_ok _ _ (uint_ok 32) (uint_ok 16)).
    unfold lockup_arms. in_list.
  - one_arm lockup_discs c_unit (fun _ : unit => KStreamed) tt unit_ok. unfold lockup_arms. in_list.
  - one_arm lockup_discs c_unit (fun _ : unit => KTreasuryView) tt unit_ok. unfold lockup_arms. in_list.
  - one_arm lockup_discs c_unit (fun _ : unit => KWithdrawable) tt unit_ok. unfold lockup_arms. in_list.
  - one_arm lockup_discs c_unit (fun _ : unit => KWithdrawalFee) tt unit_ok. unfold lockup_arms. in_list.
Qed.
Theorem C50_merkle_received : forall c rest, merkle_call_ok c = true -> dispatch merkle_arms (merkle_data c ++ rest) = Some c.
Proof.
  intros c rest Hok. unfold merkle_data. destruct c; cbn [merkle_call_ok merkle_args] in *.
  - one_arm merkle_discs (c_u32 ** c_u64 ** c_vec c_hash) (fun '(i, a, p) => JClaim i a p) (index, amount, proof)
      (pair_ok _ _ (pair_ok _ _ (uint_ok 4) (uint_ok 8)) (vec_ok _ hash_codec_ok)). unfold merkle_arms. in_list.
  - one_arm merkle_discs c_u64 JClawback amount (uint_ok 8). unfold merkle_arms. in_list.
  - one_arm merkle_discs c_unit (fun _ : unit => JCollectFees) tt unit_ok. unfold merkle_arms. in_list.
  - one_arm merkle_discs c_campaign_args JCreateCampaign g campaign_args_ok. unfold merkle_arms. in_list.
  - one_arm merkle_discs c_three_keys (fun '(f, p, c) => JInitialize f p c) (fee_collector, chainlink_program, chainlink_feed) three_keys_ok.
    unfold merkle_arms. in_list.
  - one_arm merkle_discs c_unit (fun _ : unit => JCampaignView) tt unit_ok. unfold merkle_arms. in_list.
  - one_arm merkle_discs c_unit (fun _ : unit => JClaimFee) tt unit_ok. unfold merkle_arms. in_list.
  - one_arm merkle_discs c_u32 JHasClaimed index (uint_ok 4). unfold merkle_arms. in_list.
  - one_arm merkle_discs c_unit (fun _ : unit => JHasExpired) tt unit_ok. unfold merkle_arms. in_list.
  - one_arm merkle_discs c_unit (fun _ : unit => JHasGracePeriodPassed) tt unit_ok. unfold merkle_arms. in_list.
  - one_arm merkle_discs c_unit (fun _ : unit => JHasCampaignStarted) tt unit_ok. unfold merkle_arms. in_list.
  - one_arm merkle_discs c_unit (fun _ : unit => JTreasuryView) tt unit_ok. unfold merkle_arms. in_list.
Qed.

(** Conversely: whatever data an instruction is run on is the encoding of that instruction with those arguments, all
    in the range of their types (followed by ignored bytes). *)
Lemma arm_sound {A C} n (c : codec A) (mk : A -> C) r x r' : codec_ok c -> byte_list r -> arm_dec (mk_arm n c mk) r = Some (x, r') ->
  exists v, x = mk v /\ val_ok c v = true /\ r = enc c v ++ r'.
Proof.
  intros Hc Hr H. cbn [mk_arm arm_dec] in H. destruct (dec c r) as [[v r1]|] eqn:Hd; [|done]. injection H as <- <-.
  apply (ck_sound _ Hc) in Hd as [? ?]; [|done]. by exists v.
Qed.
Ltac arms_cases H := repeat (apply elem_of_cons in H as [->|H]); [..|by apply elem_of_nil in H].
Ltac arm_case Hd Hc Hb :=
  let v := fresh "v" in let Hv := fresh "Hv" in
  apply (arm_sound _ _ _ _ _ _ Hc Hb) in Hd as (v & -> & Hv & ->);
  repeat match goal with x : _ * _ |- _ => destruct x end; repeat match goal with x : unit |- _ => destruct x end;
  (split; [exact Hv || reflexivity|]); eexists; cbn [mk_arm arm_disc]; rewrite app_assoc; reflexivity.
Theorem C50_lockup_exact : forall l c, byte_list l -> dispatch lockup_arms l = Some c ->
  lockup_call_ok c = true /\ exists rest, l = lockup_data c ++ rest.
Proof.
  intros l c Hl H. apply dispatch_sound in H as (a & r & r' & Ha & -> & Hd). apply byte_list_app in Hl as [_ Hb].
  unfold lockup_arms in Ha. arms_cases Ha.
  all: first [arm_case Hd unit_ok Hb | arm_case Hd dur_args_ok Hb | arm_case Hd ts_args_ok Hb | arm_case Hd three_keys_ok Hb
    | arm_case Hd (uint_ok 8) Hb | arm_case Hd (pair_ok _ _ (uint_ok 32) (uint_ok 16)) Hb].
Qed.
Theorem C50_merkle_exact : forall l c, byte_list l -> dispatch merkle_arms l = Some c ->
  merkle_call_ok c = true /\ exists rest, l = merkle_data c ++ rest.
Proof.
  intros l c Hl H. apply dispatch_sound in H as (a & r & r' & Ha & -> & Hd). apply byte_list_app in Hl as [_ Hb].
  unfold merkle_arms in Ha. arms_cases Ha.
  all: first [arm_case Hd unit_ok Hb | arm_case Hd campaign_args_ok Hb | arm_case Hd three_keys_ok Hb
    | arm_case Hd (uint_ok 8) Hb | arm_case Hd (uint_ok 4) Hb
    | arm_case Hd (pair_ok _ _ (pair_ok _ _ (uint_ok 4) (uint_ok 8)) (vec_ok _ hash_codec_ok)) Hb].
Qed.

(** The argument checks of the model's instructions are exactly what decoding guarantees. *)
Lemma ltb_leb x m : (x <? m + 1) = (x <=? m).
Proof. destruct (Z.ltb_spec x (m + 1)), (Z.leb_spec x m); lia. Qed.
Lemma val_u64 x : val_ok c_u64 x = is_u64 x.
Proof. unfold is_u64. rewrite <- (ltb_leb x U64_MAX). reflexivity. Qed.
Lemma val_u128 x : val_ok c_u128 x = is_u128 x.
Proof. unfold is_u128. rewrite <- (ltb_leb x U128_MAX). reflexivity. Qed.
Lemma val_u32 x : val_ok c_u32 x = is_u32 x.
Proof. unfold is_u32. rewrite <- (ltb_leb x 4294967295). reflexivity. Qed.
Lemma val_key x : val_ok c_key x = is_key x.
Proof. reflexivity. Qed.
Lemma val_pair {A B} (ca : codec A) (cb : codec B) x y : val_ok (ca ** cb) (x, y) = val_ok ca x && val_ok cb y.
Proof. reflexivity. Qed.
Ltac vals := rewrite ?val_pair, ?val_u64, ?val_u128, ?val_u32, ?val_key.
Theorem C50_lockup_arguments : forall ix,
  lockup_ix_ok ix = true <-> lockup_call_ok (lockup_call_of ix) = true /\ forallb is_key (lockup_accounts ix) = true.
Proof.
  intros []; cbn [lockup_ix_ok lockup_call_of lockup_call_ok lockup_accounts];
    unfold create_accs_ok, withdraw_accs_ok, collect_accs_ok, c_ts_args, c_dur_args, c_three_keys; cbn [c_map val_ok]; vals;
    cbn [forallb]; change (val_ok c_bool _) with true; rewrite ?andb_true_iff; tauto.
Qed.
Theorem C50_merkle_arguments : forall ix, (forall a i am pf, ix = MClaim a i am pf -> Z.of_nat (length pf) <= 4294967295) ->
  (merkle_ix_ok ix = true <-> merkle_call_ok (merkle_call_of ix) = true /\ forallb is_key (merkle_accounts ix) = true).
Proof.
  intros ix Hpf. destruct ix as [i t f p c|a g|a i am pf|a am|a]; cbn [merkle_ix_ok merkle_call_of merkle_call_ok merkle_accounts];
    unfold create_accs_ok, withdraw_accs_ok, collect_accs_ok, c_campaign_args, c_three_keys; cbn [c_map val_ok]; vals.
  3: { assert (val_ok (c_vec c_hash) pf = forallb is_hash pf) as ->.
       { cbn [c_vec val_ok c_hash]. specialize (Hpf _ _ _ _ eq_refl). unfold is_u32.
         rewrite (proj2 (Z.leb_le _ _)), (proj2 (Z.leb_le _ _)) by lia. reflexivity. }
       cbn [forallb]. rewrite ?andb_true_iff. tauto. }
  all: change (val_ok c_hash) with is_hash; change (val_ok c_string) with is_string; cbn [forallb]; rewrite ?andb_true_iff; tauto.
Qed.

(** ** Non-vacuity *)
(** The bytes of the stream, the collection and the campaign of the scripted run, and what they load as. *)
Example C45_example : exists s c, wdat w6 !! kStream kSender 1 = Some (DStream s) /\ wdat w6 !! kCampaign 1500 0 = Some (DCampaign c) /\
  option_map length (account_bytes (DStream s)) = Some 156%nat /\ option_map length (account_bytes (DCampaign c)) = Some 142%nat /\
  match account_bytes (DCampaign c) with Some l => loads_of PMerkle (l ++ repeat 0 86) = [DCampaign c] | None => False end /\
  match account_bytes (DCampaign c) with Some l => loads_of PLockup l = [] | None => False end.
Proof.
  eexists _, _. split; [vm_compute; reflexivity|]. split; [vm_compute; reflexivity|]. split; [vm_compute; reflexivity|].
  split; [vm_compute; reflexivity|]. split; vm_compute; reflexivity.
Qed.
(** A campaign with an IPFS CID of 88 bytes (29 over the constant [CAMPAIGN_IPFS_CID_SIZE]) and a name of 3 is accepted; one
    byte more is not; a name of 33 bytes never. *)
Definition cid_args (n : nat) : campaign_args := CampaignArgs rootABC 1500 0 drop_name (repeat 65 n) 1000 3.
Example C45_long_cid :
  is_ok (merkle_exec E0 [kSender] (MCreateCampaign (camp_accs 1500 0) (cid_args 88)) w4) = true /\
  is_ok (merkle_exec E0 [kSender] (MCreateCampaign (camp_accs 1500 0) (cid_args 89)) w4) = false.
Proof. split; vm_compute; reflexivity. Qed.
(** A claim as it is sent. *)
Example C50_example :
  dispatch merkle_arms (merkle_data (JClaim 0 500 [leafB; leafC]) ++ [1; 2; 3]) = Some (JClaim 0 500 [leafB; leafC]) /\
  merkle_call_ok (JClaim 0 500 [leafB; leafC]) = true /\
  length (merkle_data (JClaim 0 500 [leafB; leafC])) = 88%nat /\
  dispatch lockup_arms (lockup_data (KWithdraw 150)) = Some (KWithdraw 150) /\
  dispatch lockup_arms (merkle_data (JClawback 150)) = None.
Proof. vm_compute. done. Qed.

Print Assumptions C45_roundtrip.
Print Assumptions C45_exact_size.
Print Assumptions C45_campaign_fits.
Print Assumptions C45_create_limits.
Print Assumptions C50_lockup_received.
Print Assumptions C50_merkle_received.
Print Assumptions C50_lockup_exact.
Print Assumptions C50_merkle_exact.
Print Assumptions C50_lockup_arguments.
Print Assumptions C50_merkle_arguments.
