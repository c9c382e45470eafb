(** No account can be substituted: what the caller chooses and the state of the chain determine every account of an
    instruction that succeeds. *)
From Verif Require Import PropWire PropHistory PropStream Lockup.
Local Opaque find_program_address ata_address create_program_address nft_name.

(** What a caller chooses freely: the accounts on both sides of the operation, the stream or campaign it is about, and
    the arguments that addresses are derived from. Everything else in the account lists (treasuries, vaults, token accounts,
    NFT accounts, metadata, oracle, programs) is not listed here. *)
Definition same_choices (i j : any_ix) : Prop :=
  match i, j with
  | IL (LInitialize a _ _ _), IL (LInitialize b _ _ _) => ia_initializer a = ia_initializer b /\ ia_nft_tp a = ia_nft_tp b
  | IL (LCreateTs a p), IL (LCreateTs b q) =>
      (ca_creator a, ca_recipient a, ca_sender a, ca_deposit_mint a, ca_nft_tp a, p_salt p) =
      (ca_creator b, ca_recipient b, ca_sender b, ca_deposit_mint b, ca_nft_tp b, p_salt q)
  | IL (LCreateDur a p), IL (LCreateDur b q) =>
      (ca_creator a, ca_recipient a, ca_sender a, ca_deposit_mint a, ca_nft_tp a, q_salt p) =
      (ca_creator b, ca_recipient b, ca_sender b, ca_deposit_mint b, ca_nft_tp b, q_salt q)
  | IL (LRenounce a), IL (LRenounce b) => ra_stream a = ra_stream b
  | IL (LCancel a), IL (LCancel b) => xa_stream a = xa_stream b
  | IL (LWithdraw a _), IL (LWithdraw b _) | IL (LWithdrawMax a), IL (LWithdrawMax b) =>
      (wa_signer a, wa_withdrawal_recipient a, wa_stream a) = (wa_signer b, wa_withdrawal_recipient b, wa_stream b)
  | IL (LCollectFees a), IL (LCollectFees b) => fa_recipient a = fa_recipient b
  | IM (MInitialize a _ _ _ _), IM (MInitialize b _ _ _ _) => a = b
  | IM (MCreateCampaign a g), IM (MCreateCampaign b h) =>
      (na_creator a, na_mint a, g_root g, g_start g, g_expiration g, g_name g) =
      (na_creator b, na_mint b, g_root h, g_start h, g_expiration h, g_name h)
  | IM (MClaim a n _ _), IM (MClaim b m _ _) =>
      (la_claimer a, la_recipient a, la_campaign a, n) = (la_claimer b, la_recipient b, la_campaign b, m)
  | IM (MClawback a _), IM (MClawback b _) => (ba_recipient a, ba_campaign a) = (ba_recipient b, ba_campaign b)
  | IM (MCollectFees a), IM (MCollectFees b) => fa_recipient a = fa_recipient b
  | _, _ => False
  end.

(** The arguments of an instruction, without its accounts. *)
Definition args_of (i : any_ix) : lockup_call + merkle_call :=
  match i with IL ix => inl (lockup_call_of ix) | IM ix => inr (merkle_call_of ix) end.

(** Two different inputs of the address hash with the same result, where a stream's NFT is looked up. *)
Definition nft_collision (E : env) (w : world) (k nft : key) : Prop :=
  exists s nft', wdat w !! k = Some (DStream s) /\ nft_mint_of E s nft' /\
    collides E PLockup (seed_string (stream_seeds nft') (s_bump s)) (seed_string (stream_seeds nft) (s_bump s)).
Definition address_collision (E : env) (ws : list world) (w : world) (i : any_ix) : Prop :=
  match i with
  | IL (LRenounce a) => nft_collision E w (ra_stream a) (ra_nft_mint a)
  | IL (LCancel a) => nft_collision E w (xa_stream a) (xa_nft_mint a)
  | IL (LWithdraw a _) | IL (LWithdrawMax a) =>
      exists s, wdat w !! wa_stream a = Some (DStream s) /\ nft_address_collision E ws w s a
  | _ => False
  end.

(** ** Lemmas *)
Lemma ata_fun E o m tp k k' : ata_address E o m tp = Ok k -> ata_address E o m tp = Ok k' -> k = k'.
Proof. intros H1 H2. rewrite H1 in H2. by injection H2. Qed.

(** The token program is that of the mint. *)
Lemma payout_prog E payer dest owner mintk tp w w1 own newd w2 vault auth signed amount dec w' :
  init_ata_if_needed E payer dest owner mintk tp w = Ok w1 ->
  lam_step (set_dat own newd w1) w2 -> (forall m, newd <> DMint m) ->
  transfer_checked E tp vault dest auth signed mintk amount dec w2 = Ok w' ->
  exists m, wdat w !! mintk = Some (DMint m) /\ m_prog m = tp.
Proof.
  intros Hi [A _ _ _] Hn Ht.
  apply init_ata_if_needed_ok in Hi as (_ & t & _ & _ & _ & _ & [A1 _ _ _]).
  apply transfer_checked_ok in Ht as (tf & td & m & _ & _ & Hm & _ & _ & Hp & _).
  rewrite A, wdat_set_dat, A1 in Hm. exists m. split; [|exact Hp].
  destruct (decide (own = mintk)) as [->|N1]; [rewrite lookup_insert in Hm; injection Hm as Hm; destruct (Hn _ Hm)|].
  rewrite lookup_insert_ne in Hm by exact N1.
  destruct (decide (dest = mintk)) as [->|N2]; [rewrite lookup_insert in Hm; discriminate Hm|].
  rewrite lookup_insert_ne in Hm by exact N2. exact Hm.
Qed.

Lemma cancel_prog E sg a w r : cancel E sg a w = Ok r -> exists m, wdat w !! xa_mint a = Some (DMint m) /\ m_prog m = xa_tp a.
Proof.
  unfold cancel. intros H. inv_all H. eapply payout_prog; [eassumption|apply lam_step_refl| |eassumption]. intros ?. discriminate.
Qed.
Lemma withdraw_prog E sg a n w r : withdraw E sg a n w = Ok r -> exists m, wdat w !! wa_mint a = Some (DMint m) /\ m_prog m = wa_tp a.
Proof.
  unfold withdraw. intros H. inv_all H. destruct x as [[w1 s] m].
  apply withdraw_accounts_inv in He as (tr & nt & vt & _ & _ & _ & _ & _ & _ & _ & _ & _ & _ & _ & _ & _ & _ & _ & _ & _ & _ & _ & Hi).
  unfold withdraw_handler in H. inv_all H. destruct x2 as [w2 fee]. inv_all H.
  apply charge_fee_ok in He2 as (Hls & _ & _).
  eapply payout_prog; [exact Hi|exact Hls| |eassumption]. intros ?. discriminate.
Qed.
Lemma clawback_prog E sg a n w r : clawback E sg a n w = Ok r -> exists m, wdat w !! ba_mint a = Some (DMint m) /\ m_prog m = ba_tp a.
Proof.
  unfold clawback. intros H. inv_all H.
  match goal with H : transfer_checked _ _ _ _ _ _ _ _ _ _ = Ok _ |- _ => apply transfer_checked_ok in H as (tf & td & m & _ & _ & Hm & _ & _ & Hp & _) end.
  match goal with H : init_ata_if_needed _ _ _ _ _ _ _ = Ok _ |- _ => apply init_ata_if_needed_ok in H as (_ & t & _ & _ & _ & _ & [A1 _ _ _]) end.
  rewrite A1 in Hm. exists m. split; [|exact Hp].
  destruct (decide (ba_recipient_ata a = ba_mint a)) as [Heq|N2]; [rewrite Heq, lookup_insert in Hm; discriminate Hm|].
  rewrite lookup_insert_ne in Hm by exact N2. exact Hm.
Qed.
Lemma claim_prog E sg a i n pf w r : claim E sg a i n pf w = Ok r -> exists m, wdat w !! la_mint a = Some (DMint m) /\ m_prog m = la_tp a.
Proof.
  unfold claim. intros H. inv_all H. match goal with p : (world * Z)%type |- _ => destruct p as [w3 fee] end. inv_all H.
  match goal with H : transfer_checked _ _ _ _ _ _ _ _ _ _ = Ok _ |- _ => apply transfer_checked_ok in H as (tf & td & m & _ & _ & Hm & _ & _ & Hp & _) end.
  match goal with H : charge_fee _ _ _ _ _ _ = Ok _ |- _ => apply charge_fee_ok in H as ([A _ _ _] & _ & _) end.
  match goal with H : init_ata_if_needed _ _ _ _ _ _ _ = Ok _ |- _ => apply init_ata_if_needed_ok in H as (_ & t & _ & _ & _ & _ & [A1 _ _ _]) end.
  match goal with H : init_account _ _ _ _ _ _ = Ok _ |- _ => apply init_account_ok in H as (_ & _ & [A2 _ _ _] & _) end.
  rewrite A, wdat_set_dat, A2, A1 in Hm. exists m. split; [|exact Hp].
  repeat match type of Hm with <[?k:=_]> _ !! ?q = _ =>
    let h := fresh in destruct (decide (k = q)) as [h|h]; [rewrite h, lookup_insert in Hm; discriminate Hm|rewrite lookup_insert_ne in Hm by exact h] end.
  exact Hm.
Qed.

Lemma mint_prog_fun w k m m' : wdat w !! k = Some (DMint m) -> wdat w !! k = Some (DMint m') -> m = m'.
Proof. intros H1 H2. rewrite H1 in H2. by injection H2. Qed.

(** ** Each instruction *)
Lemma initialize_same E sg sg' a b f p c f' p' c' w r r' : initialize E sg a f p c w = Ok r -> initialize E sg' b f' p' c' w = Ok r' ->
  ia_initializer a = ia_initializer b -> ia_nft_tp a = ia_nft_tp b -> a = b.
Proof.
  destruct r as [w1 e1], r' as [w2 e2]. intros H1 H2 C1 C2.
  apply initialize_inv in H1 as (_ & tb & nb & F). apply initialize_inv in H2 as (_ & tb' & nb' & G).
  destruct F as [_ _ F1 F2 [? F3] F4 [? F5] [? F6] _ _ _ _]. destruct G as [_ _ G1 G2 [? G3] G4 [? G5] [? G6] _ _ _ _].
  destruct a, b; cbn in *. subst.
  pose proof (fpa_fun _ _ _ _ _ _ _ F1 G1) as [-> _]. pose proof (fpa_fun _ _ _ _ _ _ _ F2 G2) as [-> _].
  pose proof (fpa_fun _ _ _ _ _ _ _ F3 G3) as [-> _]. pose proof (ata_fun _ _ _ _ _ _ F4 G4) as ->.
  pose proof (fpa_fun _ _ _ _ _ _ _ F5 G5) as [-> _]. pose proof (fpa_fun _ _ _ _ _ _ _ F6 G6) as [-> _]. reflexivity.
Qed.

(** The addresses of a creation, as far as they are derived. *)
Record create_derived (E : env) (w : world) (a : create_accs) (salt : Z) : Prop := {
  cd_nc : exists nc, wdat w !! ca_nft_collection_data a = Some (DNftCollection nc);
  cd_cm : exists b, find_program_address E PLockup [s_NFT_COLLECTION_MINT] = Ok (ca_coll_mint a, b);
  cd_cmd : exists b, find_program_address E PMetadata (metadata_seeds E (ca_coll_mint a)) = Ok (ca_coll_metadata a, b);
  cd_ced : exists b, find_program_address E PMetadata (edition_seeds E (ca_coll_mint a)) = Ok (ca_coll_edition a, b);
  cd_prog : exists m, wdat w !! ca_deposit_mint a = Some (DMint m) /\ m_prog m = ca_deposit_tp a;
  cd_ata : ata_address E (ca_creator a) (ca_deposit_mint a) (ca_deposit_tp a) = Ok (ca_creator_ata a);
  cd_nft : exists b, find_program_address E PLockup (nft_mint_seeds (ca_sender a) salt) = Ok (ca_nft_mint a, b);
  cd_nft_ata : ata_address E (ca_recipient a) (ca_nft_mint a) (ca_nft_tp a) = Ok (ca_recipient_nft_ata a);
  cd_stream : exists b, find_program_address E PLockup (stream_seeds (ca_nft_mint a)) = Ok (ca_stream a, b);
  cd_vault : ata_address E (ca_stream a) (ca_deposit_mint a) (ca_deposit_tp a) = Ok (ca_vault a);
  cd_md : exists b, find_program_address E PMetadata (metadata_seeds E (ca_nft_mint a)) = Ok (ca_metadata a, b);
  cd_ed : exists b, find_program_address E PMetadata (edition_seeds E (ca_nft_mint a)) = Ok (ca_edition a, b) }.
Lemma create_accounts_derived E sg a salt w r : create_accounts E sg a salt w = Ok r -> create_derived E w a salt.
Proof.
  destruct r as [[[[w1 sb] mb] nc] dm]. intros H. pose proof H as H'.
  apply create_accounts_inv in H' as (ct & cm & _ & _ & D1 & _ & _ & D2 & _ & _ & D3 & D4 & D5 & [b D6] & D7 & D8 & D9 & _).
  unfold create_accounts in H. inv_all H. rewrite !check_seeds_ok in *.
  split; try (match goal with |- exists b, find_program_address ?E ?p ?s = Ok (?k, b) =>
    match goal with H : find_program_address E p s = Ok (k, ?b) |- _ => exists b; exact H end end).
  - exists nc. exact D2.
  - exists dm. split; [exact D4|exact D5].
  - exact D1.
  - exact D7.
  - exact D9.
Qed.
Lemma create_same E w a b salt : inv E w -> create_derived E w a salt -> create_derived E w b salt ->
  ca_creator a = ca_creator b -> ca_recipient a = ca_recipient b -> ca_sender a = ca_sender b ->
  ca_deposit_mint a = ca_deposit_mint b -> ca_nft_tp a = ca_nft_tp b -> a = b.
Proof.
  intros [_ Hli _] F G C1 C2 C3 C4 C5.
  destruct F as [[n1 F1] [? F2] [? F3] [? F4] [m1 [F5 F5']] F6 [? F7] F8 [? F9] F10 [? F11] [? F12]].
  destruct G as [[n2 G1] [? G2] [? G3] [? G4] [m2 [G5 G5']] G6 [? G7] G8 [? G9] G10 [? G11] [? G12]].
  apply (li_coll _ _ Hli) in F1 as [F1 _]. apply (li_coll _ _ Hli) in G1 as [G1 _]. clear Hli.
  destruct a, b; cbn in *. subst ca_creator0 ca_recipient0 ca_sender0 ca_deposit_mint0 ca_nft_tp0.
  pose proof (mint_prog_fun _ _ _ _ F5 G5) as Hm. subst m2. rewrite F5' in G5'. subst ca_deposit_tp0.
  pose proof (fpa_fun _ _ _ _ _ _ _ F1 G1) as [-> _]. pose proof (fpa_fun _ _ _ _ _ _ _ F2 G2) as [-> _].
  pose proof (fpa_fun _ _ _ _ _ _ _ F3 G3) as [-> _]. pose proof (fpa_fun _ _ _ _ _ _ _ F4 G4) as [-> _].
  pose proof (ata_fun _ _ _ _ _ _ F6 G6) as ->. pose proof (fpa_fun _ _ _ _ _ _ _ F7 G7) as [-> _].
  pose proof (ata_fun _ _ _ _ _ _ F8 G8) as ->. pose proof (fpa_fun _ _ _ _ _ _ _ F9 G9) as [-> _].
  pose proof (ata_fun _ _ _ _ _ _ F10 G10) as ->. pose proof (fpa_fun _ _ _ _ _ _ _ F11 G11) as [-> _].
  pose proof (fpa_fun _ _ _ _ _ _ _ F12 G12) as [-> _]. reflexivity.
Qed.

(** The NFT mint of a stream, up to a collision. *)
Lemma nft_determined E w k n1 n2 s : env_ok E -> inv E w -> key_ok n1 -> key_ok n2 ->
  stream_view E k n1 w = Ok s -> stream_view E k n2 w = Ok s ->
  (n1 = n2 /\ stream_at E w k n1 s) \/ nft_collision E w k n1 \/ nft_collision E w k n2.
Proof.
  intros HE Hi K1 K2 V1 V2.
  destruct (view_at_inv _ _ _ _ _ HE Hi K1 V1) as [[H1 [b1 N1]]|(x & _ & [Hk Hx] & Hc)].
  2: { right; left. exists s, x. split; [exact Hk|]. split; [exact Hx|exact Hc]. }
  destruct (view_at_inv _ _ _ _ _ HE Hi K2 V2) as [[H2 [b2 N2]]|(x & _ & [Hk Hx] & Hc)].
  2: { right; right. exists s, x. split; [exact Hk|]. split; [exact Hx|exact Hc]. }
  left. destruct (fpa_fun _ _ _ _ _ _ _ N1 N2) as [-> _]. split; [reflexivity|]. split; [exact H1|exists b2; exact N2].
Qed.
Lemma treasury_determined E w k1 t1 k2 t2 : inv E w -> wdat w !! k1 = Some (DLockupTreasury t1) -> wdat w !! k2 = Some (DLockupTreasury t2) ->
  k1 = k2 /\ t1 = t2.
Proof.
  intros [_ Hl _] H1 H2. pose proof (ti_addr _ _ _ _ _ (li_treasury _ _ Hl _ _ H1)) as A1. pose proof (ti_addr _ _ _ _ _ (li_treasury _ _ Hl _ _ H2)) as A2.
  destruct (fpa_fun _ _ _ _ _ _ _ A1 A2) as [-> _]. rewrite H1 in H2. split; [reflexivity|]. by injection H2.
Qed.
Lemma m_treasury_determined E w k1 t1 k2 t2 : inv E w -> wdat w !! k1 = Some (DMerkleTreasury t1) -> wdat w !! k2 = Some (DMerkleTreasury t2) ->
  k1 = k2 /\ t1 = t2.
Proof.
  intros [_ _ Hl] H1 H2. pose proof (ti_addr _ _ _ _ _ (mi_treasury _ _ Hl _ _ H1)) as A1. pose proof (ti_addr _ _ _ _ _ (mi_treasury _ _ Hl _ _ H2)) as A2.
  destruct (fpa_fun _ _ _ _ _ _ _ A1 A2) as [-> _]. rewrite H1 in H2. split; [reflexivity|]. by injection H2.
Qed.

Lemma renounce_same E sg sg' a b w r r' : env_ok E -> inv E w -> key_ok (ra_nft_mint a) -> key_ok (ra_nft_mint b) ->
  renounce E sg a w = Ok r -> renounce E sg' b w = Ok r' -> ra_stream a = ra_stream b ->
  a = b \/ nft_collision E w (ra_stream a) (ra_nft_mint a) \/ nft_collision E w (ra_stream b) (ra_nft_mint b).
Proof.
  destruct r as [w1 e1], r' as [w2 e2]. intros HE Hi K1 K2 H1 H2 C.
  assert (forall sg a w1 e1, renounce E sg a w = Ok (w1, e1) -> exists s, ra_sender a = s_sender s /\ stream_view E (ra_stream a) (ra_nft_mint a) w = Ok s) as Hv.
  { clear. intros sg a w1 e1 H. apply renounce_inv in H as (s & st & _ & Hs & Hd & [nm Hn] & Ha & _). exists s. split; [exact Hs|].
    unfold stream_view, load_stream, load_mint, check_seeds_bump. rewrite Hn, Hd. cbn [rbind]. rewrite Ha. by rewrite bool_decide_true by reflexivity. }
  apply Hv in H1 as (s & S1 & V1). apply Hv in H2 as (s2 & S2 & V2). rewrite C in V1.
  assert (s2 = s) as ->.
  { apply stream_view_inv in V1 as (V1 & _). apply stream_view_inv in V2 as (V2 & _). rewrite V1 in V2. by injection V2. }
  destruct (nft_determined _ _ _ _ _ _ HE Hi K1 K2 V1 V2) as [[Hn _]|[Hc|Hc]]; [left|right; left; rewrite C; exact Hc|right; right; exact Hc].
  destruct a, b; cbn in *. congruence.
Qed.

Lemma cancel_same E sg sg' a b w r r' : env_ok E -> inv E w -> key_ok (xa_nft_mint a) -> key_ok (xa_nft_mint b) ->
  cancel E sg a w = Ok r -> cancel E sg' b w = Ok r' -> xa_stream a = xa_stream b ->
  a = b \/ nft_collision E w (xa_stream a) (xa_nft_mint a) \/ nft_collision E w (xa_stream b) (xa_nft_mint b).
Proof.
  destruct r as [w1 e1], r' as [w2 e2]. intros HE Hi K1 K2 H1 H2 C.
  pose proof (cancel_prog _ _ _ _ _ H1) as [pa [PA PA']]. pose proof (cancel_prog _ _ _ _ _ H2) as [pb [PB PB']].
  apply cancel_inv in H1 as (m1 & s & v1 & d1 & st1 & F). apply cancel_inv in H2 as (m2 & s2 & v2 & d2 & st2 & G).
  pose proof (cancel_stream_view _ _ _ _ _ _ _ _ _ _ _ F) as V1. pose proof (cancel_stream_view _ _ _ _ _ _ _ _ _ _ _ G) as V2.
  rewrite C in V1.
  assert (s2 = s) as ->.
  { apply stream_view_inv in V1 as (V1 & _). apply stream_view_inv in V2 as (V2 & _). rewrite V1 in V2. by injection V2. }
  destruct (nft_determined _ _ _ _ _ _ HE Hi K1 K2 V1 V2) as [[Hn _]|[Hc|Hc]]; [left|right; left; rewrite C; exact Hc|right; right; exact Hc].
  pose proof (cf_sender _ _ _ _ _ _ _ _ _ _ _ F) as F1. pose proof (cf_sender _ _ _ _ _ _ _ _ _ _ _ G) as G1.
  pose proof (cf_mint_addr _ _ _ _ _ _ _ _ _ _ _ F) as F2. pose proof (cf_mint_addr _ _ _ _ _ _ _ _ _ _ _ G) as G2.
  pose proof (cf_vault_addr _ _ _ _ _ _ _ _ _ _ _ F) as F3. pose proof (cf_vault_addr _ _ _ _ _ _ _ _ _ _ _ G) as G3.
  pose proof (pf_dest_addr _ _ _ _ _ _ _ _ _ _ _ _ _ _ _ (cf_pay _ _ _ _ _ _ _ _ _ _ _ F)) as F4.
  pose proof (pf_dest_addr _ _ _ _ _ _ _ _ _ _ _ _ _ _ _ (cf_pay _ _ _ _ _ _ _ _ _ _ _ G)) as G4.
  clear F G V1 V2. destruct a, b; cbn in *. subst xa_stream0 xa_nft_mint0 xa_sender0 xa_sender xa_mint0 xa_mint.
  pose proof (mint_prog_fun _ _ _ _ PA PB) as Hm. subst pb. rewrite PA' in PB'. subst xa_tp0.
  pose proof (ata_fun _ _ _ _ _ _ F3 G3) as ->. pose proof (ata_fun _ _ _ _ _ _ F4 G4) as ->. reflexivity.
Qed.

Lemma withdraw_same E tr ws w sg sg' ix ix' a b w1 e1 w2 e2 : env_ok E -> history_via E any_clock tr ws w ->
  key_ok (tprog_id E SplToken) -> key_ok (tprog_id E Token2022) -> is_withdraw ix a -> is_withdraw ix' b ->
  lockup_exec E sg ix w = Ok (w1, e1) -> lockup_exec E sg' ix' w = Ok (w2, e2) ->
  (wa_signer a, wa_withdrawal_recipient a, wa_stream a) = (wa_signer b, wa_withdrawal_recipient b, wa_stream b) ->
  a = b \/ exists s, wdat w !! wa_stream a = Some (DStream s) /\ wa_stream b = wa_stream a /\
    (nft_address_collision E ws w s a \/ nft_address_collision E ws w s b).
Proof.
  intros HE Hvia T1 T2 I1 I2 X1 X2 C.
  assert (reachable E w) as Hr by (exists tr; exact (via_history _ _ _ _ _ Hvia)). pose proof (reachable_inv _ _ HE Hr) as Hi.
  assert (forall sg ix a w1 e1, is_withdraw ix a -> lockup_exec E sg ix w = Ok (w1, e1) -> exists m, wdat w !! wa_mint a = Some (DMint m) /\ m_prog m = wa_tp a) as Hp.
  { clear. intros sg ix a w1 e1 [->|[n ->]] H; unfold lockup_exec in H; inv_all H.
    - apply withdraw_max_eq in H as (wd & _ & H). exact (withdraw_prog _ _ _ _ _ _ H).
    - exact (withdraw_prog _ _ _ _ _ _ H). }
  pose proof (Hp _ _ _ _ _ I1 X1) as [pa [PA PA']]. pose proof (Hp _ _ _ _ _ I2 X2) as [pb [PB PB']]. clear Hp.
  destruct (is_withdraw_facts _ _ _ _ _ _ _ I1 X1) as (_ & am1 & tr1 & m1 & nt1 & s & s1' & vt1 & dt1 & fee1 & wd1 & _ & _ & _ & F).
  destruct (is_withdraw_facts _ _ _ _ _ _ _ I2 X2) as (_ & am2 & tr2 & m2 & nt2 & s2 & s2' & vt2 & dt2 & fee2 & wd2 & _ & _ & _ & G).
  pose proof (wf_stream _ _ _ _ _ _ _ _ _ _ _ _ _ _ _ _ F) as Hs1. pose proof (wf_stream _ _ _ _ _ _ _ _ _ _ _ _ _ _ _ _ G) as Hs2.
  assert (wa_stream b = wa_stream a) as Hab by (injection C as _ _ ->; reflexivity).
  rewrite Hab, Hs1 in Hs2. injection Hs2 as <-.
  destruct (withdraw_holder _ _ _ _ _ s _ _ _ _ _ HE Hvia T1 T2 Hs1 I1 eq_refl X1) as [Hc|(n1 & q1 & [_ [c1 N1]] & D1 & M1 & Q1 & O1)];
    [right; exists s; split; [exact Hs1|]; split; [exact Hab|left; exact Hc]|].
  destruct (withdraw_holder _ _ _ _ _ s _ _ _ _ _ HE Hvia T1 T2 Hs1 I2 Hab X2) as [Hc|(n2 & q2 & [_ [c2 N2]] & D2 & M2 & Q2 & O2)];
    [right; exists s; split; [exact Hs1|]; split; [exact Hab|right; exact Hc]|].
  destruct (fpa_fun _ _ _ _ _ _ _ N1 N2) as [Hn _]. subst n2.
  assert (wa_nft_ata a = wa_nft_ata b) as Heq.
  { apply (proj2 (C24_one_nft E w (wa_stream a) n1 s HE Hr (conj Hs1 (ex_intro _ _ N1))) _ q1 _ q2); try assumption; lia. }
  assert (key_ok (wa_nft_mint a) /\ key_ok (wa_nft_mint b)) as [K1 K2].
  { destruct (is_withdraw_facts _ _ _ _ _ _ _ I1 X1) as (O & _). destruct (is_withdraw_facts _ _ _ _ _ _ _ I2 X2) as (O' & _).
    unfold withdraw_accs_ok in O, O'. ranges. done. }
  pose proof (withdraw_stream_view _ _ _ _ _ _ _ _ _ _ _ _ _ _ _ _ F) as V1. pose proof (withdraw_stream_view _ _ _ _ _ _ _ _ _ _ _ _ _ _ _ _ G) as V2.
  rewrite Hab in V2.
  destruct (nft_determined _ _ _ _ _ _ HE Hi K1 K2 V1 V2) as [[Hm _]|Hc].
  2: { right. exists s. split; [exact Hs1|]. split; [exact Hab|].
    destruct Hc as [(s' & x & Hs' & Hx & Hc)|(s' & x & Hs' & Hx & Hc)]; rewrite Hs1 in Hs'; injection Hs' as <-; [left|right]; left; exists x; (split; [exact Hx|exact Hc]). }
  left. destruct F, G. destruct wf_oracle as [F1 F2], wf_oracle0 as [G1 G2].
  apply pf_dest_addr in wf_pay. apply pf_dest_addr in wf_pay0.
  destruct (treasury_determined _ _ _ _ _ _ Hi wf_treasury wf_treasury0) as [Ht ->].
  rewrite D1 in wf_nft. injection wf_nft as <-. rewrite <-Heq, D1 in wf_nft0. injection wf_nft0 as <-.
  injection C as C1 C2 _.
  clear - Ht F1 F2 G1 G2 wf_pay wf_pay0 C1 C2 Hm Heq Hab PA PA' PB PB' wf_mint_addr wf_mint_addr0 wf_vault_addr wf_vault_addr0
    wf_nft_owner wf_nft_owner0 wf_nft_prog wf_nft_prog0.
  destruct a, b; cbn in *. subst wa_signer0 wa_withdrawal_recipient0 wa_stream0 wa_nft_mint0 wa_nft_ata0 wa_treasury0 wa_chainlink wa_feed wa_chainlink0 wa_feed0 wa_mint wa_mint0.
  pose proof (mint_prog_fun _ _ _ _ PA PB) as Hp. subst pb. rewrite PA' in PB'. subst wa_tp0.
  pose proof (ata_fun _ _ _ _ _ _ wf_vault_addr wf_vault_addr0) as ->. pose proof (ata_fun _ _ _ _ _ _ wf_pay wf_pay0) as ->.
  rewrite <-wf_nft_owner, <-wf_nft_owner0, <-wf_nft_prog, <-wf_nft_prog0. reflexivity.
Qed.

Lemma claim_same E sg sg' a b n1 am1 pf1 n2 am2 pf2 w r r' : inv E w -> claim E sg a n1 am1 pf1 w = Ok r -> claim E sg' b n2 am2 pf2 w = Ok r' ->
  (la_claimer a, la_recipient a, la_campaign a, n1) = (la_claimer b, la_recipient b, la_campaign b, n2) -> a = b.
Proof.
  destruct r as [w1 e1], r' as [w2 e2]. intros Hi H1 H2 C.
  pose proof (claim_prog _ _ _ _ _ _ _ _ H1) as [pa [PA PA']]. pose proof (claim_prog _ _ _ _ _ _ _ _ H2) as [pb [PB PB']].
  apply claim_inv in H1 as (tr1 & m1 & c1 & v1 & d1 & f1 & F). apply claim_inv in H2 as (tr2 & m2 & c2 & v2 & d2 & f2 & G).
  destruct F, G. destruct lf_oracle as [F1 F2], lf_oracle0 as [G1 G2], lf_receipt_addr as [b1 R1], lf_receipt_addr0 as [b2 R2].
  apply pf_dest_addr in lf_pay. apply pf_dest_addr in lf_pay0.
  destruct (m_treasury_determined _ _ _ _ _ _ Hi lf_treasury lf_treasury0) as [Ht ->].
  injection C as C1 C2 C3 C4. rewrite C3 in lf_campaign. rewrite lf_campaign in lf_campaign0. injection lf_campaign0 as <-.
  clear - C1 C2 C3 C4 Ht F1 F2 G1 G2 R1 R2 lf_pay lf_pay0 PA PA' PB PB' lf_mint_addr lf_mint_addr0 lf_vault_addr lf_vault_addr0.
  destruct a, b; cbn in *.
  subst la_claimer0 la_recipient0 la_campaign0 n2 la_treasury0 la_chainlink la_chainlink0 la_feed la_feed0 la_mint la_mint0.
  pose proof (mint_prog_fun _ _ _ _ PA PB) as Hp. subst pb. rewrite PA' in PB'. subst la_tp0.
  pose proof (ata_fun _ _ _ _ _ _ lf_vault_addr lf_vault_addr0) as ->. pose proof (ata_fun _ _ _ _ _ _ lf_pay lf_pay0) as ->.
  pose proof (fpa_fun _ _ _ _ _ _ _ R1 R2) as [-> _]. reflexivity.
Qed.

Lemma clawback_same E sg sg' a b n1 n2 w r r' : clawback E sg a n1 w = Ok r -> clawback E sg' b n2 w = Ok r' ->
  (ba_recipient a, ba_campaign a) = (ba_recipient b, ba_campaign b) -> a = b.
Proof.
  destruct r as [w1 e1], r' as [w2 e2]. intros H1 H2 C.
  pose proof (clawback_prog _ _ _ _ _ _ H1) as [pa [PA PA']]. pose proof (clawback_prog _ _ _ _ _ _ H2) as [pb [PB PB']].
  apply clawback_inv in H1 as (m1 & c1 & v1 & d1 & F). apply clawback_inv in H2 as (m2 & c2 & v2 & d2 & G).
  destruct F, G. apply pf_dest_addr in bf_pay. apply pf_dest_addr in bf_pay0.
  injection C as C1 C2. rewrite C2 in bf_campaign. rewrite bf_campaign in bf_campaign0. injection bf_campaign0 as <-.
  clear - C1 C2 bf_pay bf_pay0 PA PA' PB PB' bf_mint_addr bf_mint_addr0 bf_vault_addr bf_vault_addr0 bf_creator bf_creator0.
  destruct a, b; cbn in *. subst ba_creator ba_creator0 ba_recipient0 ba_campaign0 ba_mint ba_mint0.
  pose proof (mint_prog_fun _ _ _ _ PA PB) as Hp. subst pb. rewrite PA' in PB'. subst ba_tp0.
  pose proof (ata_fun _ _ _ _ _ _ bf_vault_addr bf_vault_addr0) as ->. pose proof (ata_fun _ _ _ _ _ _ bf_pay bf_pay0) as ->. reflexivity.
Qed.

Lemma create_campaign_same E sg sg' a b g h w r r' : create_campaign E sg a g w = Ok r -> create_campaign E sg' b h w = Ok r' ->
  (na_creator a, na_mint a, g_root g, g_start g, g_expiration g, g_name g) =
  (na_creator b, na_mint b, g_root h, g_start h, g_expiration h, g_name h) -> a = b.
Proof.
  destruct r as [w1 e1], r' as [w2 e2]. intros H1 H2 C.
  apply create_campaign_inv in H1 as (m1 & b1 & _ & F1 & F2 & F3 & _ & _ & _ & F4 & _).
  apply create_campaign_inv in H2 as (m2 & b2 & _ & G1 & G2 & G3 & _ & _ & _ & G4 & _).
  injection C as C1 C2 C3 C4 C5 C6. rewrite C3, C4, C5, C6 in F3. clear C3 C4 C5 C6.
  destruct a, b; cbn in *. subst na_creator0 na_mint0.
  pose proof (mint_prog_fun _ _ _ _ F1 G1) as Hp. subst m2. rewrite F2 in G2. subst na_tp0.
  pose proof (fpa_fun _ _ _ _ _ _ _ F3 G3) as [-> _]. pose proof (ata_fun _ _ _ _ _ _ F4 G4) as ->. reflexivity.
Qed.

Lemma collect_same E sg sg' a b w r r' : inv E w -> lockup_collect_fees E sg a w = Ok r -> lockup_collect_fees E sg' b w = Ok r' ->
  fa_recipient a = fa_recipient b -> a = b.
Proof.
  destruct r as [w1 e1], r' as [w2 e2]. intros Hi H1 H2 C.
  apply collect_fees_inv in H1 as (t1 & n1 & _ & F1 & F2 & _). apply collect_fees_inv in H2 as (t2 & n2 & _ & G1 & G2 & _).
  destruct (treasury_determined _ _ _ _ _ _ Hi F1 G1) as [Ht ->]. destruct a, b; cbn in *. congruence.
Qed.
Lemma m_collect_same E sg sg' a b w r r' : inv E w -> merkle_collect_fees E sg a w = Ok r -> merkle_collect_fees E sg' b w = Ok r' ->
  fa_recipient a = fa_recipient b -> a = b.
Proof.
  destruct r as [w1 e1], r' as [w2 e2]. intros Hi H1 H2 C.
  apply merkle_collect_fees_inv in H1 as (t1 & n1 & _ & F1 & F2 & _). apply merkle_collect_fees_inv in H2 as (t2 & n2 & _ & G1 & G2 & _).
  destruct (m_treasury_determined _ _ _ _ _ _ Hi F1 G1) as [Ht ->]. destruct a, b; cbn in *. congruence.
Qed.

(** Equal accounts: the same account list, and with the same arguments the same instruction. *)
Definition same_accounts (E : env) (i j : any_ix) : Prop :=
  (forall P, x_metas (wire_of E P i) = x_metas (wire_of E P j)) /\ (args_of i = args_of j -> i = j).

Lemma no_substitution E tr ws w sg sg' i j r r' : env_ok E -> history_via E any_clock tr ws w ->
  key_ok (tprog_id E SplToken) -> key_ok (tprog_id E Token2022) ->
  exec E sg i w = Ok r -> exec E sg' j w = Ok r' -> same_choices i j ->
  same_accounts E i j \/ address_collision E ws w i \/ address_collision E ws w j.
Proof.
  intros HE Hvia T1 T2 X1 X2 C.
  assert (reachable E w) as Hr by (exists tr; exact (via_history _ _ _ _ _ Hvia)). pose proof (reachable_inv _ _ HE Hr) as Hi.
  destruct r as [w1 e1], r' as [w2 e2].
  assert (forall ix ix' a b, is_withdraw ix a -> is_withdraw ix' b -> lockup_exec E sg ix w = Ok (w1, e1) -> lockup_exec E sg' ix' w = Ok (w2, e2) ->
    (wa_signer a, wa_withdrawal_recipient a, wa_stream a) = (wa_signer b, wa_withdrawal_recipient b, wa_stream b) ->
    a = b \/ (exists s, wdat w !! wa_stream a = Some (DStream s) /\ nft_address_collision E ws w s a) \/
      exists s, wdat w !! wa_stream b = Some (DStream s) /\ nft_address_collision E ws w s b) as Hw.
  { intros ix ix' a b I1 I2 Y1 Y2 Cab.
    destruct (withdraw_same _ _ _ _ _ _ _ _ _ _ _ _ _ _ HE Hvia T1 T2 I1 I2 Y1 Y2 Cab) as [H|(s & Hs & Hab & [H|H])].
    - left. exact H.
    - right; left. exists s. split; [exact Hs|exact H].
    - right; right. exists s. rewrite Hab. split; [exact Hs|exact H]. }
  destruct i as [ix|ix]; destruct j as [jx|jx]; destruct ix; try (destruct C; fail); destruct jx; try (destruct C; fail); cbn [same_choices] in C.
  - unfold exec, lockup_exec in X1, X2. inv_all X1. inv_all X2. destruct C as [C1 C2].
    pose proof (initialize_same _ _ _ _ _ _ _ _ _ _ _ _ _ _ X1 X2 C1 C2) as ->. left. split; [reflexivity|]. cbn. intros [=]. congruence.
  - unfold exec, lockup_exec in X1, X2. inv_all X1. inv_all X2. injection C as C1 C2 C3 C4 C5 C6.
    unfold create_with_timestamps in X1, X2. inv_all X1. inv_all X2.
    match goal with H1 : create_accounts _ _ _ _ _ = Ok _, H2 : create_accounts _ _ _ _ _ = Ok _ |- _ =>
      apply create_accounts_derived in H1; apply create_accounts_derived in H2; rewrite C6 in H1;
      pose proof (create_same _ _ _ _ _ Hi H1 H2 C1 C2 C3 C4 C5) as -> end.
    left. split; [reflexivity|]. cbn. intros [=]. congruence.
  - unfold exec, lockup_exec in X1, X2. inv_all X1. inv_all X2. injection C as C1 C2 C3 C4 C5 C6.
    unfold create_with_durations in X1, X2. inv_all X1. inv_all X2.
    match goal with H1 : create_accounts _ _ _ _ _ = Ok _, H2 : create_accounts _ _ _ _ _ = Ok _ |- _ =>
      apply create_accounts_derived in H1; apply create_accounts_derived in H2; rewrite C6 in H1;
      pose proof (create_same _ _ _ _ _ Hi H1 H2 C1 C2 C3 C4 C5) as -> end.
    left. split; [reflexivity|]. cbn. intros [=]. congruence.
  - unfold exec, lockup_exec in X1, X2. inv1 X1. inv1 X2.
    match goal with H1 : ensure (lockup_ix_ok (LRenounce ?a)) _ = _, H2 : ensure (lockup_ix_ok (LRenounce ?b)) _ = _ |- _ =>
      assert (key_ok (ra_nft_mint a) /\ key_ok (ra_nft_mint b)) as [K1 K2] by (inv_all H1; inv_all H2; unfold lockup_ix_ok in *; ranges; split; assumption) end.
    destruct (renounce_same _ _ _ _ _ _ _ _ HE Hi K1 K2 X1 X2 C) as [->|H]; [left; split; [reflexivity|intros _; reflexivity]|right; exact H].
  - unfold exec, lockup_exec in X1, X2. inv1 X1. inv1 X2.
    match goal with H1 : ensure (lockup_ix_ok (LCancel ?a)) _ = _, H2 : ensure (lockup_ix_ok (LCancel ?b)) _ = _ |- _ =>
      assert (key_ok (xa_nft_mint a) /\ key_ok (xa_nft_mint b)) as [K1 K2] by (inv_all H1; inv_all H2; unfold lockup_ix_ok in *; ranges; split; assumption) end.
    destruct (cancel_same _ _ _ _ _ _ _ _ HE Hi K1 K2 X1 X2 C) as [->|H]; [left; split; [reflexivity|intros _; reflexivity]|right; exact H].
  - destruct (Hw _ _ _ _ (or_intror (ex_intro _ _ eq_refl)) (or_intror (ex_intro _ _ eq_refl)) X1 X2 C) as [->|H]; [|right; exact H].
    left. split; [reflexivity|]. cbn. intros [=]. congruence.
  - destruct (Hw _ _ _ _ (or_introl eq_refl) (or_introl eq_refl) X1 X2 C) as [->|H]; [|right; exact H].
    left. split; [reflexivity|intros _; reflexivity].
  - unfold exec, lockup_exec in X1, X2. inv_all X1. inv_all X2. pose proof (collect_same _ _ _ _ _ _ _ _ Hi X1 X2 C) as ->.
    left. split; [reflexivity|intros _; reflexivity].
  - unfold exec, merkle_exec in X1, X2. inv_all X1. inv_all X2. subst.
    apply m_initialize_inv in X1 as (b1 & _ & F & _). apply m_initialize_inv in X2 as (b2 & _ & G & _).
    pose proof (fpa_fun _ _ _ _ _ _ _ F G) as [-> _]. left. split; [reflexivity|]. cbn. intros [=]. congruence.
  - unfold exec, merkle_exec in X1, X2. inv_all X1. inv_all X2. pose proof (create_campaign_same _ _ _ _ _ _ _ _ _ _ X1 X2 C) as ->.
    left. split; [reflexivity|]. cbn. intros [=]. congruence.
  - unfold exec, merkle_exec in X1, X2. inv_all X1. inv_all X2. pose proof (claim_same _ _ _ _ _ _ _ _ _ _ _ _ _ _ Hi X1 X2 C) as ->.
    left. split; [reflexivity|]. cbn. intros [=]. congruence.
  - unfold exec, merkle_exec in X1, X2. inv_all X1. inv_all X2. pose proof (clawback_same _ _ _ _ _ _ _ _ _ _ X1 X2 C) as ->.
    left. split; [reflexivity|]. cbn. intros [=]. congruence.
  - unfold exec, merkle_exec in X1, X2. inv_all X1. inv_all X2. pose proof (m_collect_same _ _ _ _ _ _ _ _ Hi X1 X2 C) as ->.
    left. split; [reflexivity|intros _; reflexivity].
Qed.

(** ** C79 *)

(** Two transactions that both succeed in a state and agree on the choices have the same account list. *)
Theorem C79_no_substitution : forall E P tr ws w sg sg' i j r r',
  env_ok E -> history_via E any_clock tr ws w -> key_ok (tprog_id E SplToken) -> key_ok (tprog_id E Token2022) ->
  exec E sg i w = Ok r -> exec E sg' j w = Ok r' -> same_choices i j ->
  x_metas (wire_of E P i) = x_metas (wire_of E P j) \/ address_collision E ws w i \/ address_collision E ws w j.
Proof.
  intros E P tr ws w sg sg' i j r r' HE Hvia T1 T2 X1 X2 C.
  destruct (no_substitution _ _ _ _ _ _ _ _ _ _ HE Hvia T1 T2 X1 X2 C) as [[H _]|H]; [left; exact (H P)|right; exact H].
Qed.

Lemma signer_is sg k u : check_signer sg k = Ok u -> check_signer sg k = Ok tt.
Proof. destruct u. exact (fun H => H). Qed.
Lemma signer_in sg k u : check_signer sg k = Ok u -> bool_decide (k ∈ sg) = true.
Proof. unfold check_signer, ensure. destruct (bool_decide (k ∈ sg)); [reflexivity|intros H; discriminate H]. Qed.
Lemma create_signers E sg sg' a salt w r r' : create_accounts E sg a salt w = Ok r -> create_accounts E sg' a salt w = Ok r' ->
  create_accounts E sg a salt w = create_accounts E sg' a salt w /\ bool_decide (ca_creator a ∈ sg) = bool_decide (ca_creator a ∈ sg').
Proof.
  intros X1 X2. unfold create_accounts in *.
  destruct (check_signer sg (ca_creator a)) as [u|] eqn:S1; [|discriminate X1].
  destruct (check_signer sg' (ca_creator a)) as [u'|] eqn:S2; [|discriminate X2]. destruct u, u'. split; [reflexivity|].
  rewrite (signer_in _ _ _ S1), (signer_in _ _ _ S2). reflexivity.
Qed.
Lemma withdraw_signers E sg sg' a w r r' : withdraw_accounts E sg a w = Ok r -> withdraw_accounts E sg' a w = Ok r' ->
  withdraw_accounts E sg a w = withdraw_accounts E sg' a w.
Proof.
  intros X1 X2. unfold withdraw_accounts in *.
  destruct (check_signer sg (wa_signer a)) as [u|] eqn:S1; [|discriminate X1].
  destruct (check_signer sg' (wa_signer a)) as [u'|] eqn:S2; [|discriminate X2]. destruct u, u'. reflexivity.
Qed.

(** Who else signed makes no difference to an instruction that succeeds. *)
Lemma exec_signers E sg sg' i w r r' : exec E sg i w = Ok r -> exec E sg' i w = Ok r' -> r = r'.
Proof.
  intros X1 X2. assert (exec E sg i w = exec E sg' i w) as H; [|rewrite H in X1; rewrite X2 in X1; injection X1 as ->; reflexivity].
  assert (forall A B C (x y : res A) (f : A -> res B) (g : A -> res C) u v, rbind x f = Ok u -> rbind y g = Ok v -> (exists a, x = Ok a) /\ exists b, y = Ok b) as Hb.
  { intros A B C x y f g u v Hx Hy. destruct x as [a|]; [|discriminate Hx]. destruct y as [b|]; [|discriminate Hy].
    split; [exists a|exists b]; reflexivity. }
  assert (forall A B (k : key) (f : unit -> res A) (g : unit -> res B) u v, rbind (check_signer sg k) f = Ok u -> rbind (check_signer sg' k) g = Ok v ->
    check_signer sg k = check_signer sg' k) as Hc.
  { intros A B k f g u v Hx Hy. destruct (Hb _ _ _ _ _ _ _ _ _ Hx Hy) as [[[] ->] [[] ->]]. reflexivity. }
  destruct i as [[a f p c|a p|a p|a|a|a n|a|a]|[a t f p c|a g|a n m p|a m|a]]; unfold exec, lockup_exec, merkle_exec in *; inv1 X1; inv1 X2; apply rbind_ext; intros _ _.
  - unfold initialize in *. rewrite (Hc _ _ _ _ _ _ _ X1 X2). reflexivity.
  - unfold create_with_timestamps in *. destruct (Hb _ _ _ _ _ _ _ _ _ X1 X2) as [[y1 Y1] [y2 Y2]].
    destruct (create_signers _ _ _ _ _ _ _ _ Y1 Y2) as [-> Hs]. unfold create_handler. rewrite Hs. reflexivity.
  - unfold create_with_durations in *. destruct (Hb _ _ _ _ _ _ _ _ _ X1 X2) as [[y1 Y1] [y2 Y2]].
    destruct (create_signers _ _ _ _ _ _ _ _ Y1 Y2) as [-> Hs]. unfold create_handler. rewrite Hs. reflexivity.
  - unfold renounce in *. rewrite (Hc _ _ _ _ _ _ _ X1 X2). reflexivity.
  - unfold cancel in *. rewrite (Hc _ _ _ _ _ _ _ X1 X2). reflexivity.
  - unfold withdraw in *. destruct (Hb _ _ _ _ _ _ _ _ _ X1 X2) as [[y1 Y1] [y2 Y2]]. rewrite (withdraw_signers _ _ _ _ _ _ _ Y1 Y2). reflexivity.
  - unfold withdraw_max in *. destruct (Hb _ _ _ _ _ _ _ _ _ X1 X2) as [[y1 Y1] [y2 Y2]]. rewrite (withdraw_signers _ _ _ _ _ _ _ Y1 Y2). reflexivity.
  - unfold lockup_collect_fees in *. rewrite (Hc _ _ _ _ _ _ _ X1 X2). reflexivity.
  - unfold m_initialize in *. rewrite (Hc _ _ _ _ _ _ _ X1 X2). reflexivity.
  - unfold create_campaign in *. rewrite (Hc _ _ _ _ _ _ _ X1 X2). reflexivity.
  - unfold claim in *. rewrite (Hc _ _ _ _ _ _ _ X1 X2). reflexivity.
  - unfold clawback in *. rewrite (Hc _ _ _ _ _ _ _ X1 X2). reflexivity.
  - unfold merkle_collect_fees in *. rewrite (Hc _ _ _ _ _ _ _ X1 X2). reflexivity.
Qed.

(** With the same arguments too, they are the same instruction and do the same thing, whoever else signed. *)
Theorem C79_same_outcome : forall E tr ws w sg sg' i j r r',
  env_ok E -> history_via E any_clock tr ws w -> key_ok (tprog_id E SplToken) -> key_ok (tprog_id E Token2022) ->
  exec E sg i w = Ok r -> exec E sg' j w = Ok r' -> same_choices i j -> args_of i = args_of j ->
  (i = j /\ r = r') \/ address_collision E ws w i \/ address_collision E ws w j.
Proof.
  intros E tr ws w sg sg' i j r r' HE Hvia T1 T2 X1 X2 C A.
  destruct (no_substitution _ _ _ _ _ _ _ _ _ _ HE Hvia T1 T2 X1 X2 C) as [[_ H]|H]; [left|right; exact H].
  pose proof (H A) as ->. split; [reflexivity|]. exact (exec_signers _ _ _ _ _ _ _ X1 X2).
Qed.

(** A payout by the recipient, another with one account exchanged, and the accounts that may be tried in its place. *)
Definition with_treasury (t : key) : withdraw_accs :=
  WithdrawAccs kRecipient kRecipient kRecipient (ata kRecipient kToken SplToken) t kToken
    (ata kRecipient (kNft kSender 1) SplToken) (kStream kSender 1) (kVault kSender 1) (kNft kSender 1) kOracle kFeed SplToken SplToken.
Definition with_vault (v : key) : withdraw_accs :=
  WithdrawAccs kRecipient kRecipient kRecipient (ata kRecipient kToken SplToken) kTreasury kToken
    (ata kRecipient (kNft kSender 1) SplToken) (kStream kSender 1) v (kNft kSender 1) kOracle kFeed SplToken SplToken.
Definition with_oracle (o f : key) : withdraw_accs :=
  WithdrawAccs kRecipient kRecipient kRecipient (ata kRecipient kToken SplToken) kTreasury kToken
    (ata kRecipient (kNft kSender 1) SplToken) (kStream kSender 1) (kVault kSender 1) (kNft kSender 1) o f SplToken SplToken.
Example C79_example : exists ws, history_via E0 any_clock tr3 ws w3 /\ key_ok (tprog_id E0 SplToken) /\ key_ok (tprog_id E0 Token2022) /\
  is_ok (exec E0 [kRecipient] (IL (LWithdraw (with_treasury kTreasury) 10)) w3) = true /\
  is_ok (exec E0 [kOther; kRecipient] (IL (LWithdraw (with_treasury kTreasury) 20)) w3) = true /\
  same_choices (IL (LWithdraw (with_treasury kTreasury) 10)) (IL (LWithdraw (with_treasury kTreasury) 20)) /\
  (* every other choice of one account makes the call fail *)
  forallb (fun a => negb (is_ok (exec E0 [kRecipient] (IL (LWithdraw a 10)) w3)))
    (map with_treasury [kVault kSender 1; kOther; kRecipient] ++ map with_vault [ata kRecipient kToken SplToken; ata kSender kToken SplToken; kTreasury] ++
     [with_oracle kOther kFeed; with_oracle kOracle kOther; with_oracle kFeed kOracle]) = true.
Proof.
  destruct (history_is_via _ _ _ _ (history_any _ _ _ _ w3_hist)) as [ws Hws]. exists ws. split; [exact Hws|].
  split; [done|]. split; [done|]. split; [vm_compute; reflexivity|]. split; [vm_compute; reflexivity|].
  split; [reflexivity|]. vm_compute. reflexivity.
Qed.
