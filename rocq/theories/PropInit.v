(** C59: initialization is open to the first caller, cannot be blocked, and is final. *)
From Verif Require Export PropOpen PropFees.

(** ** Statement *)
Definition init_new_accounts (a : initialize_accs) : list key :=
  [ia_treasury a; ia_nft_collection_data a; ia_mint a; ia_ata a; ia_metadata a; ia_edition a].
(** Lamports that always suffice. *)
Definition init_cost (E : env) (a : initialize_accs) : Z :=
  Z.max 1 (rent_min E TREASURY_SPACE) + Z.max 1 (rent_min E NFT_COLLECTION_SPACE) + Z.max 1 (rent_min E MINT_SPACE)
  + ata_rent E (ia_mint a) (ia_nft_tp a) + Z.max 0 (rent_min E METADATA_SPACE + md_fee E) + Z.max 1 (rent_min E EDITION_SPACE).

(** The caller signs, passes the derived addresses and holds the rent. The token account, metadata and edition of the
    collection mint cannot exist before the mint (the Associated Token and Metaplex programs require it). *)
Record init_ready (E : env) (w : world) (sg : list key) (a : initialize_accs) (f p c : key) : Prop := {
  ir_signed : ia_initializer a ∈ sg;
  ir_ix : lockup_ix_ok (LInitialize a f p c) = true;
  ir_nft_program : md_accepts E (ia_nft_tp a) = true;
  ir_treasury : exists b, find_program_address E PLockup [s_TREASURY] = Ok (ia_treasury a, b);
  ir_data : exists b, find_program_address E PLockup [s_NFT_COLLECTION_DATA] = Ok (ia_nft_collection_data a, b);
  ir_mint : exists b, find_program_address E PLockup [s_NFT_COLLECTION_MINT] = Ok (ia_mint a, b);
  ir_ata : ata_address E (ia_treasury a) (ia_mint a) (ia_nft_tp a) = Ok (ia_ata a);
  ir_metadata : exists b, find_program_address E PMetadata (metadata_seeds E (ia_mint a)) = Ok (ia_metadata a, b);
  ir_edition : exists b, find_program_address E PMetadata (edition_seeds E (ia_mint a)) = Ok (ia_edition a, b);
  ir_distinct : NoDup (ia_initializer a :: init_new_accounts a);
  ir_no_mint_yet : wdat w !! ia_mint a = None ->
    wdat w !! ia_ata a = None /\ wdat w !! ia_metadata a = None /\ wdat w !! ia_edition a = None;
  ir_lamports : forall k, k ∈ init_new_accounts a -> 0 <= lam w k;
  ir_funds : wdat w !! ia_initializer a = None /\ init_cost E a <= lam w (ia_initializer a) }.

(** ** Before initialize, Lockup has no account at all *)
Lemma uninitialized_empty E C tr w : env_ok E -> history E C tr w -> ~ initialized_in tr ->
  forall k, pda_of E PLockup k = true -> wdat w !! k = None.
Proof.
  intros HE (w0 & Hg & Hr). induction Hr as [|tr w a evs w' Hr IH Hst]; intros Hni k Hk.
  - apply (g_pda _ _ Hg). by left.
  - assert (~ initialized_in tr) as Hni'.
    { intros (sg & ia & f & p & c & evs' & Hin). apply Hni. exists sg, ia, f, p, c, evs'. apply elem_of_app. by left. }
    specialize (IH Hni' k Hk). pose proof (run_sane _ _ _ _ _ HE (g_token _ _ Hg) Hr) as Hts.
    destruct (C58_nothing_before_initialize _ _ _ _ HE (ex_intro _ w0 (conj Hg Hr)) Hni') as (N1 & N2 & N3).
    pose proof (step_keeps _ _ _ _ _ _ HE Hts Hst) as [HL _ _ _].
    destruct Hst as [sg ix evs w' Hsg Hx|sg ix evs w' Hsg Hx|w' Ho Hc].
    + destruct (lockup_exec_effect _ _ _ _ _ _ Hx) as [_ Heff].
      destruct Heff as [a f p c tb nb ? F|? a p ct nc cm dm sb s1 nm c0 c1 ? ? Hix Hargs F|a s1 st ? ? Hsi Hse Hs ? ? ? ? -> ->|a m s1 vt dt st ? ? F
        |? a am tr' m nt s1 s' vt dt fee wd ? ? Hix Ham F|a tr' n' ? Hc Htr ? ? -> ? Hmv].
      * exfalso. apply Hni. exists sg, a, f, p, c, []. apply elem_of_app. right. by apply elem_of_list_singleton.
      * exfalso. destruct Hix as [->|(q & -> & _)].
        -- destruct (N1 sg a p) as [e He]. rewrite Hx in He. discriminate.
        -- destruct (N2 sg a q) as [e He]. rewrite Hx in He. discriminate.
      * exfalso. exact (N3 _ _ Hs).
      * exfalso. exact (N3 _ _ (cf_stream _ _ _ _ _ _ _ _ _ _ _ F)).
      * exfalso. exact (N3 _ _ (wf_stream _ _ _ _ _ _ _ _ _ _ _ _ _ _ _ _ F)).
      * apply move_lamports_ok in Hmv as (-> & _). exact IH.
    + exact (u_pda _ _ _ _ (HL eq_refl) _ Hk IH).
    + exact (u_pda _ _ _ _ (HL eq_refl) _ Hk IH).
Qed.

(** ** initialize succeeds *)
Local Ltac side := solve [assumption | apply not_eq_sym; assumption | intros ?Heq; congruence].
Local Ltac look := repeat first [rewrite lookup_insert | rewrite lookup_insert_ne by side].

Lemma initialize_live E w sg a f p c : env_ok E -> init_ready E w sg a f p c ->
  (forall k, k ∈ init_new_accounts a -> wdat w !! k = None) ->
  exists w' evs, lockup_exec E sg (LInitialize a f p c) w = Ok (w', evs).
Proof.
  intros HE [Rsg Rix Rac [tb At] [nb An] [mb Am] Aa [mdb Amd] [eb Ae] Hnd _ Hlam [Fd Fl]] Hnew.
  unfold init_new_accounts in *.
  pose proof (Hlam (ia_treasury a) ltac:(rewrite !elem_of_cons; tauto)) as L1.
  pose proof (Hnew (ia_treasury a) ltac:(rewrite !elem_of_cons; tauto)) as N1.
  pose proof (Hnew (ia_nft_collection_data a) ltac:(rewrite !elem_of_cons; tauto)) as N2. pose proof (Hlam (ia_nft_collection_data a) ltac:(rewrite !elem_of_cons; tauto)) as L2.
  pose proof (Hnew (ia_mint a) ltac:(rewrite !elem_of_cons; tauto)) as N3. pose proof (Hlam (ia_mint a) ltac:(rewrite !elem_of_cons; tauto)) as L3.
  pose proof (Hnew (ia_ata a) ltac:(rewrite !elem_of_cons; tauto)) as N4. pose proof (Hlam (ia_ata a) ltac:(rewrite !elem_of_cons; tauto)) as L4.
  pose proof (Hnew (ia_metadata a) ltac:(rewrite !elem_of_cons; tauto)) as N5. pose proof (Hlam (ia_metadata a) ltac:(rewrite !elem_of_cons; tauto)) as L5.
  pose proof (Hnew (ia_edition a) ltac:(rewrite !elem_of_cons; tauto)) as N6. pose proof (Hlam (ia_edition a) ltac:(rewrite !elem_of_cons; tauto)) as L6.
  clear Hnew Hlam. rewrite !NoDup_cons, !not_elem_of_cons in Hnd.
  destruct Hnd as ((P1 & P2 & P3 & P4 & P5 & P6 & _) & (Q12 & Q13 & Q14 & Q15 & Q16 & _) & (Q23 & Q24 & Q25 & Q26 & _) &
    (Q34 & Q35 & Q36 & _) & (Q45 & Q46 & _) & (Q56 & _) & _).
  assert (exists r1 r2 r3 r4 r5 r6, r1 = Z.max 1 (rent_min E TREASURY_SPACE) /\ r2 = Z.max 1 (rent_min E NFT_COLLECTION_SPACE) /\
    r3 = Z.max 1 (rent_min E MINT_SPACE) /\ r4 = ata_rent E (ia_mint a) (ia_nft_tp a) /\ r5 = Z.max 0 (rent_min E METADATA_SPACE + md_fee E) /\
    r6 = Z.max 1 (rent_min E EDITION_SPACE) /\ 0 <= r1 /\ 0 <= r2 /\ 0 <= r3 /\ 0 <= r4 /\ 0 <= r5 /\ 0 <= r6)
    as (r1 & r2 & r3 & r4 & r5 & r6 & E1 & E2 & E3 & E4 & E5 & E6 & H1 & H2 & H3 & H4 & H5 & H6).
  { do 6 eexists. do 6 (split; [reflexivity|]). unfold ata_rent. clear. lia. }
  unfold init_cost in Fl. rewrite <- E1, <- E2, <- E3, <- E4, <- E5, <- E6 in Fl.
  destruct (init_step E (ia_initializer a) (ia_treasury a) TREASURY_SPACE (DLockupTreasury (Treasury 0 0 0 0)) w (r2 + r3 + r4 + r5 + r6)) as (w1 & W1 & D1 & G1 & M1);
    [clear - H2 H3 H4 H5 H6; lia|done|done|done|done|rewrite <- E1; clear - Fl; lia|].
  destruct (init_step E (ia_initializer a) (ia_nft_collection_data a) NFT_COLLECTION_SPACE (DNftCollection (NftCollection 0 0)) w1 (r3 + r4 + r5 + r6)) as (w2 & W2 & D2 & G2 & M2);
    [clear - H2 H3 H4 H5 H6; lia|rewrite D1; by look|rewrite D1; by look|etransitivity; [exact L2|apply M1; side]|done|rewrite <- E2; clear - G1; lia|].
  set (mt := Mint (ia_nft_tp a) 0 0 (Some (ia_mint a)) (Some (ia_mint a))).
  destruct (init_step E (ia_initializer a) (ia_mint a) MINT_SPACE (DMint mt) w2 (r4 + r5 + r6)) as (w3 & W3 & D3 & G3 & M3);
    [clear - H2 H3 H4 H5 H6; lia|rewrite D2, D1; by look|rewrite D2, D1; by look|etransitivity; [exact L3|etransitivity; [apply M1|apply M2]; side]|done|rewrite <- E3; clear - G2; lia|].
  destruct (create_ata_step E (ia_initializer a) (ia_ata a) (ia_treasury a) (ia_mint a) (ia_nft_tp a) w3 mt (r5 + r6)) as (w4 & W4 & D4 & G4 & M4);
    [clear - H2 H3 H4 H5 H6; lia|rewrite D3, D2, D1; by look|rewrite D3, D2, D1; by look|
     etransitivity; [exact L4|etransitivity; [apply M1|etransitivity; [apply M2|apply M3]]; side]|done|rewrite <- E4; clear - G3; lia|exact Aa|rewrite D3; by look|done|].
  set (w5 := set_dat (ia_nft_collection_data a) (DNftCollection (NftCollection 0 nb)) (set_dat (ia_treasury a) (DLockupTreasury (Treasury tb f p c)) w4)).
  assert (wdat w5 = <[ia_nft_collection_data a:=DNftCollection (NftCollection 0 nb)]> (<[ia_treasury a:=DLockupTreasury (Treasury tb f p c)]>
    (<[ia_ata a:=DToken (TokAcc (ia_nft_tp a) (ia_mint a) (ia_treasury a) 0 false)]> (<[ia_mint a:=DMint mt]>
    (<[ia_nft_collection_data a:=DNftCollection (NftCollection 0 0)]> (<[ia_treasury a:=DLockupTreasury (Treasury 0 0 0 0)]> (wdat w)))))))
    as D5 by (unfold w5; by rewrite !wdat_set_dat, D4, D3, D2, D1).
  pose proof (mint_to_live (ia_nft_tp a) (ia_mint a) (ia_ata a) (ia_mint a) 1 w5 mt (TokAcc (ia_nft_tp a) (ia_mint a) (ia_treasury a) 0 false)
    ltac:(rewrite D5; by look) ltac:(rewrite D5; by look) eq_refl eq_refl eq_refl eq_refl eq_refl ltac:(done) ltac:(done)) as W6.
  match type of W6 with _ = Ok ?x => set (w6 := x) in W6 end.
  set (mt1 := Mint (ia_nft_tp a) 1 0 (Some (ia_mint a)) (Some (ia_mint a))).
  assert (wdat w6 = <[ia_ata a:=DToken (TokAcc (ia_nft_tp a) (ia_mint a) (ia_treasury a) 1 false)]> (<[ia_mint a:=DMint mt1]> (wdat w5))) as D6 by done.
  assert (forall j, lam w6 j = lam w4 j) as M6 by done.
  destruct (create_metadata_step E (ia_initializer a) (ia_metadata a) (ia_mint a) (ia_mint a) COLLECTION_NAME COLLECTION_SYMBOL COLLECTION_METADATA_URI (Some 0) w6
    mt1 mdb r6) as (w7 & W7 & D7 & G7 & M7);
    [vm_compute; lia|vm_compute; lia|vm_compute; lia|rewrite D6; by look|done|exact Amd|exact H6|rewrite D6, D5; by look|rewrite D6, D5; by look|
     rewrite M6; etransitivity; [exact L5|etransitivity; [apply M1|etransitivity; [apply M2|etransitivity; [apply M3|apply M4]]]; side]|done|
     rewrite M6, <- E5; clear - G4; lia|].
  destruct (create_master_edition_step E (ia_initializer a) (ia_edition a) (ia_metadata a) (ia_mint a) (ia_mint a) w7
    mt1 COLLECTION_NAME None (Some 0) false eb) as (w8 & dd & W8 & D8);
    [rewrite D7, D6; by look|done|done|done|exact Rac|rewrite D7; by look|exact Ae|rewrite D7, D6, D5; by look|rewrite D7, D6, D5; by look|
     etransitivity; [exact L6|etransitivity; [apply M1|etransitivity; [apply M2|etransitivity; [apply M3|etransitivity; [apply M4|rewrite <- M6; apply M7]]]]; side]|done|
     rewrite <- E6; clear - G7; lia|].
  assert (exists w9, sign_metadata (ia_metadata a) true w8 = Ok w9) as (w9 & W9).
  { unfold sign_metadata. assert (wdat w8 !! ia_metadata a = Some (DMetadata (ia_mint a) (ia_mint a) COLLECTION_NAME None (Some 0) false)) as -> by (rewrite D8, D7; by look).
    cbn [ensure rbind]. by eexists. }
  eexists w9, []. unfold lockup_exec. rewrite Rix. cbn [ensure rbind]. unfold initialize. rewrite (check_signer_live _ _ Rsg). cbn [rbind].
  rewrite (check_seeds_live _ _ _ _ _ At). cbn [rbind]. rewrite W1. cbn [rbind]. rewrite (check_seeds_live _ _ _ _ _ An). cbn [rbind]. rewrite W2. cbn [rbind].
  rewrite (check_seeds_live _ _ _ _ _ Am). cbn [rbind]. unfold create_mint. fold mt. rewrite W3. cbn [rbind]. rewrite W4. cbn [rbind].
  rewrite (check_seeds_live _ _ _ _ _ Ae), (check_seeds_live _ _ _ _ _ Amd). cbn [rbind]. cbv zeta. fold w5.
  apply fpa_cpa in Am as [Am _]. rewrite Am. rewrite bool_decide_true by done.
  rewrite W6. cbn [rbind]. rewrite W7. cbn [rbind]. rewrite W8. cbn [rbind]. rewrite W9. cbn [rbind]. reflexivity.
Qed.

(** ** C59, Lockup *)
(** Nobody can block the first initialization: in every history without one, it succeeds for every caller. *)
Theorem C59_initialize_succeeds : forall E C tr w sg a f p c, env_ok E -> history E C tr w -> ~ initialized_in tr ->
  init_ready E w sg a f p c -> exists w' evs, lockup_exec E sg (LInitialize a f p c) w = Ok (w', evs).
Proof.
  intros E C tr w sg a f p c HE Hh Hni HR. pose proof (uninitialized_empty _ _ _ _ HE Hh Hni) as Hem.
  apply initialize_live; [exact HE|exact HR|]. destruct HR as [_ _ _ [tb At] [nb An] [mb Am] _ _ _ _ Hno _ _].
  pose proof (Hem _ (proj1 (fpa_pda _ _ _ _ _ HE Am))) as Nm. destruct (Hno Nm) as (Na & Nmd & Ne).
  intros k Hk. unfold init_new_accounts in Hk. rewrite !elem_of_cons in Hk.
  destruct Hk as [->|[->|[->|[->|[->|[->|Hk]]]]]].
  - exact (Hem _ (proj1 (fpa_pda _ _ _ _ _ HE At))).
  - exact (Hem _ (proj1 (fpa_pda _ _ _ _ _ HE An))).
  - exact Nm.
  - exact Na.
  - exact Nmd.
  - exact Ne.
  - apply elem_of_nil in Hk. destruct Hk.
Qed.

(** Where Metaplex refuses the token program chosen for the collection NFT, initialize fails. *)
Theorem C59_nft_program : forall E w sg a f p c, md_accepts E (ia_nft_tp a) = false ->
  exists e, lockup_exec E sg (LInitialize a f p c) w = Err e.
Proof.
  intros E w sg a f p c Hno. destruct (lockup_exec E sg (LInitialize a f p c) w) as [[w' evs]|e] eqn:Hx; [|by exists e]. exfalso.
  unfold lockup_exec in Hx. inv_all Hx. apply initialize_inv in Hx as (_ & tb & nb & F). rewrite (if_accepts _ _ _ _ _ _ _ _ _ _ F) in Hno. discriminate Hno.
Qed.

(** "Only the deployer chooses the fee collector and the oracle" does not hold: whoever calls first - any account with
    the rent - fixes them for ever, and every later initialize fails, the deployer's too. *)
Theorem C59_deployer_only_refuted : forall E tr w sg a f p c, env_ok E -> history E any_clock tr w -> ~ initialized_in tr ->
  signers_ok E sg -> init_ready E w sg a f p c ->
  exists w' evs, step E any_clock w (ALockup sg (LInitialize a f p c)) evs w' /\
    forall w2, later E w' w2 ->
      (exists t, lockup_treasury_view E (ia_treasury a) w2 = Ok t /\
        tr_fee_collector t = f /\ tr_chainlink_program t = p /\ tr_chainlink_feed t = c) /\
      (forall sg2 a2 f2 p2 c2, exists e, lockup_exec E sg2 (LInitialize a2 f2 p2 c2) w2 = Err e).
Proof.
  intros E tr w sg a f p c HE Hh Hni Hsg HR. destruct (C59_initialize_succeeds _ _ _ _ _ _ _ _ _ HE Hh Hni HR) as (w' & evs & Hx).
  exists w', evs. assert (step E any_clock w (ALockup sg (LInitialize a f p c)) evs w') as Hst by (constructor; [exact Hsg|exact Hx]).
  split; [exact Hst|]. intros w2 Hl.
  assert (reachable E w') as Hre.
  { destruct Hh as (w0 & Hg & Hr). exists (tr ++ [(ALockup sg (LInitialize a f p c), evs)]). exists w0. split; [exact Hg|].
    econstructor; [exact Hr|exact Hst]. }
  destruct (C28_lockup_initialize _ _ _ _ _ _ _ _ _ HE Hx) as (t & Ht & T1 & T2 & T3).
  destruct (C28_lockup_settings _ _ _ _ _ HE Hre Hl Ht) as [Ht2 _].
  split; [exists t; split; [exact Ht2|split; [exact T1|split; [exact T2|exact T3]]]|].
  intros sg2 a2 f2 p2 c2. destruct (lockup_exec E sg2 (LInitialize a2 f2 p2 c2) w2) as [[w3 evs3]|e] eqn:Hx2; [|by exists e].
  exfalso. destruct HR as [_ _ _ [tb At] _ _ _ _ _ _ _ _ _].
  apply lockup_treasury_view_inv in Ht2 as [Hk _].
  apply lockup_exec_effect in Hx2 as [_ Heff].
  inversion Heff as [? ? ? ? tb2 nb2 ? F|? ? ? ? ? ? ? ? ? ? ? ? ? ? Hix| | |? ? ? ? ? ? ? ? ? ? ? ? ? ? Hix|]; subst.
  - destruct (fpa_fun _ _ _ _ _ _ _ At (if_treasury_addr _ _ _ _ _ _ _ _ _ _ F)) as [He _].
    pose proof (if_fresh _ _ _ _ _ _ _ _ _ _ F) as Hf. rewrite Forall_cons in Hf. destruct Hf as [Hf _]. rewrite <- He, Hk in Hf. discriminate.
  - destruct Hix as [?|(q & ? & _)]; discriminate.
  - destruct Hix as [?|[? _]]; discriminate.
Qed.

(** ** C59, Merkle Instant *)
Record m_init_ready (E : env) (w : world) (sg : list key) (i t f p c : key) : Prop := {
  jr_signed : i ∈ sg;
  jr_ix : merkle_ix_ok (MInitialize i t f p c) = true;
  jr_treasury : exists b, find_program_address E PMerkle [s_TREASURY] = Ok (t, b);
  jr_new : wdat w !! t = None /\ 0 <= lam w t;
  jr_distinct : i <> t;
  jr_funds : wdat w !! i = None /\ Z.max 1 (rent_min E TREASURY_SPACE) <= lam w i }.
Theorem C59_merkle_initialize_succeeds : forall E w sg i t f p c, m_init_ready E w sg i t f p c ->
  exists w' evs, merkle_exec E sg (MInitialize i t f p c) w = Ok (w', evs).
Proof.
  intros E w sg i t f p c [Hs Hix [b Ht] [Hn Hl0] Hne [Hd Hl]].
  destruct (init_step E i t TREASURY_SPACE (DMerkleTreasury (Treasury 0 0 0 0)) w 0) as (w1 & W1 & _); [done|done|done|done|done|lia|].
  eexists _, _. unfold merkle_exec. rewrite Hix. cbn [ensure rbind]. unfold m_initialize. rewrite (check_signer_live _ _ Hs). cbn [rbind].
  rewrite (check_seeds_live _ _ _ _ _ Ht). cbn [rbind]. rewrite W1. cbn [rbind]. reflexivity.
Qed.
Theorem C59_merkle_deployer_only_refuted : forall E w sg i t f p c, env_ok E -> reachable E w ->
  signers_ok E sg -> m_init_ready E w sg i t f p c ->
  exists w' evs, step E any_clock w (AMerkle sg (MInitialize i t f p c)) evs w' /\
    forall w2, later E w' w2 ->
      (exists tr, merkle_treasury_view E t w2 = Ok tr /\
        tr_fee_collector tr = f /\ tr_chainlink_program tr = p /\ tr_chainlink_feed tr = c) /\
      (forall sg2 i2 t2 f2 p2 c2, exists e, merkle_exec E sg2 (MInitialize i2 t2 f2 p2 c2) w2 = Err e).
Proof.
  intros E w sg i t f p c HE Hre Hsg HR. destruct (C59_merkle_initialize_succeeds _ _ _ _ _ _ _ _ HR) as (w' & evs & Hx).
  exists w', evs. assert (step E any_clock w (AMerkle sg (MInitialize i t f p c)) evs w') as Hst by (constructor; [exact Hsg|exact Hx]).
  split; [exact Hst|]. intros w2 Hl.
  assert (reachable E w') as Hre' by (eapply reachable_later; [exact Hre|by eapply step_later]).
  destruct (C28_merkle_initialize _ _ _ _ _ _ _ _ _ _ HE Hx) as (tr & Ht & T1 & T2 & T3).
  destruct (C28_merkle_settings _ _ _ _ _ HE Hre' Hl Ht) as [Ht2 _].
  split; [exists tr; split; [exact Ht2|split; [exact T1|split; [exact T2|exact T3]]]|].
  intros sg2 i2 t2 f2 p2 c2. destruct (merkle_exec E sg2 (MInitialize i2 t2 f2 p2 c2) w2) as [[w3 evs3]|e] eqn:Hx2; [|by exists e].
  exfalso. destruct HR as [_ _ [tb At] _ _ _]. apply merkle_treasury_view_inv in Ht2 as [Hk _].
  apply merkle_exec_effect in Hx2 as [_ Heff]. inversion Heff as [? ? ? ? ? b ? Hi Ht' Hn Hne Hd Hr| | | |]; subst.
  destruct (fpa_fun _ _ _ _ _ _ _ At Ht') as [He _]. rewrite <- He, Hk in Hn. discriminate.
Qed.

(** ** Example: a stranger initializes both programs first, naming itself as the fee collector *)
Definition hostile_accs : initialize_accs :=
  InitializeAccs kSender kTreasury kCollData (kEdition kCollMint) (kMetadata kCollMint) kCollMint
    (ata kTreasury kCollMint SplToken) SplToken.
Example C59_example : history E0 any_clock [] w0 /\ ~ initialized_in [] /\ signers_ok E0 [kSender] /\
  init_ready E0 w0 [kSender] hostile_accs kSender kOracle kFeed /\ m_init_ready E0 w0 [kSender] kSender kMTreasury kSender kOracle kFeed.
Proof.
  split; [exists w0; split; [apply w0_genesis|constructor]|].
  split; [intros (? & ? & ? & ? & ? & ? & Hin); apply elem_of_nil in Hin; destruct Hin|].
  split; [intros k Hk; apply elem_of_list_singleton in Hk as ->; vm_compute; done|]. split.
  - split; [left|vm_compute; reflexivity|reflexivity|exists 255; vm_compute; reflexivity|exists 255; vm_compute; reflexivity|exists 255; vm_compute; reflexivity
      |vm_compute; reflexivity|exists 255; vm_compute; reflexivity|exists 255; vm_compute; reflexivity|apply (bool_decide_unpack _); vm_compute; exact I
      |intros _; split; [vm_compute; reflexivity|split; vm_compute; reflexivity]
      |
      |split; [vm_compute; reflexivity|vm_compute; congruence]].
    intros k _. assert (forallb (fun x => 0 <=? snd x) (map_to_list (wlam w0)) = true) as H by (vm_compute; reflexivity).
    unfold lam. destruct (wlam w0 !! k) as [z|] eqn:Hz; [|done]. simpl. rewrite forallb_forall in H.
    apply elem_of_map_to_list in Hz. apply elem_of_list_In in Hz. specialize (H _ Hz). simpl in H. lia.
  - split; [left|vm_compute; reflexivity|exists 255; vm_compute; reflexivity|split; [vm_compute; reflexivity|vm_compute; congruence]
      |vm_compute; congruence|split; [vm_compute; reflexivity|vm_compute; congruence]].
Qed.

Print Assumptions C59_initialize_succeeds.
Print Assumptions C59_deployer_only_refuted.
Print Assumptions C59_merkle_deployer_only_refuted.
