(** C47: creation succeeds for an unused identity - unless somebody created the vault's token account first. *)
From Verif Require Export PropLive PropNft.

(** ** What the creator has to bring *)

(** The accounts a create makes. *)
Definition new_accounts (a : create_accs) : list key :=
  [ca_nft_mint a; ca_recipient_nft_ata a; ca_stream a; ca_vault a; ca_metadata a; ca_edition a].
(** Lamports that always suffice for them. *)
Definition create_cost (E : env) (a : create_accs) : Z :=
  Z.max 1 (rent_min E MINT_SPACE) + ata_rent E (ca_nft_mint a) (ca_nft_tp a) + Z.max 1 (rent_min E STREAM_SPACE)
  + ata_rent E (ca_deposit_mint a) (ca_deposit_tp a) + Z.max 0 (rent_min E METADATA_SPACE + md_fee E) + Z.max 1 (rent_min E EDITION_SPACE).

(** The addresses are the derived ones. *)
Record create_addresses (E : env) (a : create_accs) (salt : Z) : Prop := {
  kd_nft : exists b, find_program_address E PLockup (nft_mint_seeds (ca_sender a) salt) = Ok (ca_nft_mint a, b);
  kd_stream : exists b, find_program_address E PLockup (stream_seeds (ca_nft_mint a)) = Ok (ca_stream a, b);
  kd_nft_ata : ata_address E (ca_recipient a) (ca_nft_mint a) (ca_nft_tp a) = Ok (ca_recipient_nft_ata a);
  kd_vault : ata_address E (ca_stream a) (ca_deposit_mint a) (ca_deposit_tp a) = Ok (ca_vault a);
  kd_edition : exists b, find_program_address E PMetadata (edition_seeds E (ca_nft_mint a)) = Ok (ca_edition a, b);
  kd_metadata : exists b, find_program_address E PMetadata (metadata_seeds E (ca_nft_mint a)) = Ok (ca_metadata a, b) }.

(** The collection NFT is as [initialize] leaves it. *)
Record collection_ready (E : env) (w : world) (a : create_accs) : Prop := {
  kc_data : exists nc, wdat w !! ca_nft_collection_data a = Some (DNftCollection nc) /\ nc_total_supply nc < U64_MAX;
  kc_mint : (exists b, find_program_address E PLockup [s_NFT_COLLECTION_MINT] = Ok (ca_coll_mint a, b)) /\
    exists m, wdat w !! ca_coll_mint a = Some (DMint m);
  kc_metadata : (exists b, find_program_address E PMetadata (metadata_seeds E (ca_coll_mint a)) = Ok (ca_coll_metadata a, b)) /\
    exists name col n sgn, wdat w !! ca_coll_metadata a = Some (DMetadata (ca_coll_mint a) (ca_coll_mint a) name col (Some n) sgn);
  kc_edition : (exists b, find_program_address E PMetadata (edition_seeds E (ca_coll_mint a)) = Ok (ca_coll_edition a, b)) /\
    wdat w !! ca_coll_edition a = Some (DEdition (ca_coll_mint a)) }.

Record create_ready (E : env) (w : world) (sg : list key) (a : create_accs) (p : create_args) : Prop := {
  kr_signed : ca_creator a ∈ sg;
  kr_ix : lockup_ix_ok (LCreateTs a p) = true;
  kr_nft_program : md_accepts E (ca_nft_tp a) = true;
  kr_terms : terms_of p;
  kr_addresses : create_addresses E a (p_salt p);
  kr_collection : collection_ready E w a;
  (* the creator holds the tokens and the lamports *)
  kr_mint : exists m, wdat w !! ca_deposit_mint a = Some (DMint m) /\ m_prog m = ca_deposit_tp a;
  kr_tokens : ata_address E (ca_creator a) (ca_deposit_mint a) (ca_deposit_tp a) = Ok (ca_creator_ata a) /\
    exists t, wdat w !! ca_creator_ata a = Some (DToken t) /\ t_owner t = ca_creator a /\ t_mint t = ca_deposit_mint a /\
      t_prog t = ca_deposit_tp a /\ t_frozen t = false /\ p_deposit p <= t_amount t;
  kr_token : token_allows E w (ca_deposit_mint a) (ca_creator_ata a) (ca_vault a) (p_deposit p);
  kr_funds : wdat w !! ca_creator a = None /\ create_cost E a <= lam w (ca_creator a);
  (* the addresses are six different ones, and nothing is there yet *)
  kr_distinct : NoDup (ca_creator a :: new_accounts a);
  kr_new : forall k, k ∈ new_accounts a -> wdat w !! k = None /\ 0 <= lam w k }.

(** ** Steps *)
Lemma init_step E payer k space d w extra : 0 <= extra -> wdat w !! k = None -> wdat w !! payer = None -> 0 <= lam w k ->
  payer <> k -> Z.max 1 (rent_min E space) + extra <= lam w payer ->
  exists w', init_account E payer k space d w = Ok w' /\ wdat w' = <[k:=d]> (wdat w) /\ extra <= lam w' payer /\
    (forall j, j <> payer -> lam w j <= lam w' j).
Proof.
  intros Hx Hk Hd Hl0 Hne Hl. unfold init_account. rewrite Hk. rewrite (proj2 (Z.eqb_neq _ _) Hne). cbn [negb ensure rbind].
  set (need := if lam w k =? 0 then _ else _).
  assert (need <= Z.max 1 (rent_min E space)) as Hn by (subst need; destruct (Z.eqb_spec (lam w k) 0); lia).
  destruct (Z.ltb_spec 0 need) as [H0|H0].
  - destruct (system_transfer_live payer k need w Hd) as [w1 H1]; [lia|]. rewrite H1. cbn [rbind]. eexists. split; [done|].
    apply system_transfer_ok in H1 as ([A _ _ _] & _ & _ & Hm & _ & Ho); [|lia]. destruct (Hm Hne) as [Hm1 Hm2].
    rewrite wdat_set_dat, A, lam_set_dat, Hm1. split; [done|]. split; [lia|]. intros j Hj. rewrite lam_set_dat.
    destruct (decide (j = k)) as [->|]; [lia|]. rewrite Ho by done. lia.
  - cbn [rbind]. eexists. split; [done|]. rewrite wdat_set_dat. split; [done|]. rewrite lam_set_dat. split; [lia|]. intros j _. rewrite lam_set_dat. lia.
Qed.
Lemma fund_step payer k n d w extra : 0 <= extra -> wdat w !! k = None -> wdat w !! payer = None -> 0 <= lam w k ->
  payer <> k -> Z.max 0 n + extra <= lam w payer ->
  exists w', fund_account payer k n d w = Ok w' /\ wdat w' = <[k:=d]> (wdat w) /\ extra <= lam w' payer /\
    (forall j, j <> payer -> lam w j <= lam w' j).
Proof.
  intros Hx Hk Hd Hl0 Hne Hl. unfold fund_account. rewrite Hk. rewrite (proj2 (Z.eqb_neq _ _) Hne). cbn [negb ensure rbind].
  destruct (Z.ltb_spec 0 n) as [H0|H0].
  - destruct (system_transfer_live payer k n w Hd) as [w1 H1]; [lia|]. rewrite H1. cbn [rbind]. eexists. split; [done|].
    apply system_transfer_ok in H1 as ([A _ _ _] & _ & _ & Hm & _ & Ho); [|lia]. destruct (Hm Hne) as [Hm1 Hm2].
    rewrite wdat_set_dat, A, lam_set_dat, Hm1. split; [done|]. split; [lia|]. intros j Hj. rewrite lam_set_dat.
    destruct (decide (j = k)) as [->|]; [lia|]. rewrite Ho by done. lia.
  - cbn [rbind]. eexists. split; [done|]. rewrite wdat_set_dat. split; [done|]. rewrite lam_set_dat. split; [lia|]. intros j _. rewrite lam_set_dat. lia.
Qed.
Lemma check_seeds_live E p s k b : find_program_address E p s = Ok (k, b) -> check_seeds E p s k = Ok b.
Proof. intros H. by apply check_seeds_ok. Qed.
Lemma create_ata_step E payer k owner mintk tp w m extra : 0 <= extra -> wdat w !! k = None -> wdat w !! payer = None -> 0 <= lam w k ->
  payer <> k -> ata_rent E mintk tp + extra <= lam w payer -> ata_address E owner mintk tp = Ok k ->
  wdat w !! mintk = Some (DMint m) -> m_prog m = tp ->
  exists w', create_ata E payer k owner mintk tp w = Ok w' /\ wdat w' = <[k:=DToken (TokAcc tp mintk owner 0 false)]> (wdat w) /\
    extra <= lam w' payer /\ (forall j, j <> payer -> lam w j <= lam w' j).
Proof.
  intros Hx Hk Hd Hl0 Hne Hl Ha Hm Hp. unfold create_ata. rewrite Ha. cbn [rbind]. rewrite Z.eqb_refl. cbn [ensure rbind].
  rewrite (proj2 (load_mint_ok _ _ _) Hm). cbn [rbind]. unfold tprog_eqb. rewrite bool_decide_true by done. cbn [ensure rbind].
  by apply init_step.
Qed.

Lemma mint_to_live tp mintk to auth amount w m t :
  wdat w !! mintk = Some (DMint m) -> wdat w !! to = Some (DToken t) -> m_prog m = tp -> t_prog t = tp -> t_frozen t = false ->
  t_mint t = mintk -> m_authority m = Some auth -> m_supply m + amount <= U64_MAX -> t_amount t + amount <= U64_MAX ->
  mint_to tp mintk to auth true amount w = Ok (set_dat to (DToken (with_amount t (t_amount t + amount)))
    (set_dat mintk (DMint (Mint (m_prog m) (m_supply m + amount) (m_decimals m) (m_authority m) (m_freeze m))) w)).
Proof.
  intros Hm Ht P1 P2 Fz Hmi Ha R1 R2. unfold mint_to. rewrite (proj2 (load_mint_ok _ _ _) Hm), (proj2 (load_token_ok _ _ _) Ht). cbn [rbind].
  rewrite P1, P2, Fz, Hmi, Z.eqb_refl. unfold tprog_eqb. rewrite bool_decide_true by done. rewrite (bool_decide_true (m_authority m = Some auth)) by done.
  rewrite (proj2 (Z.leb_le _ _) R1), (proj2 (Z.leb_le _ _) R2). done.
Qed.
Lemma create_metadata_step E payer md mintk auth name sym uri size w m b extra :
  (length name <= 32)%nat -> (length sym <= 10)%nat -> (length uri <= 200)%nat -> wdat w !! mintk = Some (DMint m) -> m_authority m = Some auth ->
  find_program_address E PMetadata (metadata_seeds E mintk) = Ok (md, b) ->
  0 <= extra -> wdat w !! md = None -> wdat w !! payer = None -> 0 <= lam w md -> payer <> md ->
  Z.max 0 (rent_min E METADATA_SPACE + md_fee E) + extra <= lam w payer ->
  exists w', create_metadata E payer md mintk auth true name sym uri size w = Ok w' /\
    wdat w' = <[md:=DMetadata mintk auth name None size false]> (wdat w) /\ extra <= lam w' payer /\ (forall j, j <> payer -> lam w j <= lam w' j).
Proof.
  intros L1 L2 L3 Hm Ha Hs Hx H1 H2 H3 H4 H5. unfold create_metadata.
  rewrite (proj2 (Z.leb_le (Z.of_nat (length name)) 32)) by lia. rewrite (proj2 (Z.leb_le (Z.of_nat (length sym)) 10)) by lia.
  rewrite (proj2 (Z.leb_le (Z.of_nat (length uri)) 200)) by lia. cbn [andb ensure rbind].
  rewrite (proj2 (load_mint_ok _ _ _) Hm). cbn [rbind]. rewrite (check_seeds_live _ _ _ _ _ Hs). cbn [rbind].
  rewrite (bool_decide_true (m_authority m = Some auth)) by done. cbn [andb ensure rbind]. by apply fund_step.
Qed.
Lemma create_master_edition_step E payer ed md mintk auth w m nm col sz sgn b :
  wdat w !! mintk = Some (DMint m) -> m_authority m = Some auth -> m_supply m = 1 -> m_decimals m = 0 -> md_accepts E (m_prog m) = true ->
  wdat w !! md = Some (DMetadata mintk auth nm col sz sgn) ->
  find_program_address E PMetadata (edition_seeds E mintk) = Ok (ed, b) ->
  wdat w !! ed = None -> wdat w !! payer = None -> 0 <= lam w ed -> payer <> ed ->
  Z.max 1 (rent_min E EDITION_SPACE) + 0 <= lam w payer ->
  exists w' d, create_master_edition E payer ed md mintk auth true w = Ok w' /\
    wdat w' = <[mintk:=DMint d]> (<[ed:=DEdition mintk]> (wdat w)).
Proof.
  intros Hm Ha Hs Hd Hac Hmd He H1 H2 H3 H4 H5. unfold create_master_edition.
  rewrite (proj2 (load_mint_ok _ _ _) Hm). cbn [rbind]. rewrite (check_seeds_live _ _ _ _ _ He). cbn [rbind].
  rewrite (bool_decide_true (m_authority m = Some auth)) by done. rewrite Hs, Hd, Hac, Hmd, !Z.eqb_refl. cbn [andb ensure rbind].
  destruct (init_step E payer ed EDITION_SPACE (DEdition mintk) w 0) as (w' & Hw & D & _); [done..|]. rewrite Hw. cbn [rbind].
  eexists _, _. split; [reflexivity|]. rewrite wdat_set_dat, D. reflexivity.
Qed.

Local Ltac side := solve [assumption | apply not_eq_sym; assumption | intros ?Heq; congruence].
Local Ltac look := repeat first [rewrite lookup_insert | rewrite lookup_insert_ne by side].

Lemma create_ix_ranges a p : lockup_ix_ok (LCreateTs a p) = true -> create_args_ok p /\ 0 + p_deposit p <= U64_MAX.
Proof. intros H. simpl in H. ranges. unfold create_args_ok. split; [split_and!|]; lia. Qed.
Lemma succ_le_u64 n : n < U64_MAX -> n + 1 <= U64_MAX.
Proof. lia. Qed.

Lemma create_live E w sg a p : env_ok E -> inv E w -> create_ready E w sg a p ->
  exists w' evs, lockup_exec E sg (LCreateTs a p) w = Ok (w', evs).
Proof.
  intros HE Hi [Rsg Rix Rac Rt [[nb An] [sb As] Ana Av [eb Ae] [mb Am]] [[nc [Cnc Cns]] [[cb Ac] [cm Cm]] [[cmb Acm] (cname & ccol & csz & csgn & Cmd)] [[ceb Ace] Ced]]
    (dm & Dm & Dp) [Aca (ct & Ct & Cto & Ctm & Ctp & Ctf & Cta)] Rtok [Fd Fl] Hnd Hnew].
  pose proof (create_ix_ranges _ _ Rix) as Rr. apply succ_le_u64 in Cns.
  (* freshness and distinctness *)
  unfold new_accounts in Hnew.
  destruct (Hnew (ca_nft_mint a)) as [N1 L1]; [rewrite !elem_of_cons; tauto|].
  destruct (Hnew (ca_recipient_nft_ata a)) as [N2 L2]; [rewrite !elem_of_cons; tauto|].
  destruct (Hnew (ca_stream a)) as [N3 L3]; [rewrite !elem_of_cons; tauto|].
  destruct (Hnew (ca_vault a)) as [N4 L4]; [rewrite !elem_of_cons; tauto|].
  destruct (Hnew (ca_metadata a)) as [N5 L5]; [rewrite !elem_of_cons; tauto|].
  destruct (Hnew (ca_edition a)) as [N6 L6]; [rewrite !elem_of_cons; tauto|].
  unfold new_accounts in Hnd. rewrite !NoDup_cons, !not_elem_of_cons in Hnd.
  destruct Hnd as ((P1 & P2 & P3 & P4 & P5 & P6 & _) & (Q12 & Q13 & Q14 & Q15 & Q16 & _) & (Q23 & Q24 & Q25 & Q26 & _) &
    (Q34 & Q35 & Q36 & _) & (Q45 & Q46 & _) & (Q56 & _) & _).
  destruct (li_coll _ _ (inv_lockup _ _ Hi) _ _ Cnc) as [Anc _].
  assert (exists r1 r2 r3 r4 r5 r6, r1 = Z.max 1 (rent_min E MINT_SPACE) /\ r2 = ata_rent E (ca_nft_mint a) (ca_nft_tp a) /\
    r3 = Z.max 1 (rent_min E STREAM_SPACE) /\ r4 = ata_rent E (ca_deposit_mint a) (ca_deposit_tp a) /\ r5 = Z.max 0 (rent_min E METADATA_SPACE + md_fee E) /\
    r6 = Z.max 1 (rent_min E EDITION_SPACE) /\ 0 <= r1 /\ 0 <= r2 /\ 0 <= r3 /\ 0 <= r4 /\ 0 <= r5 /\ 0 <= r6)
    as (r1 & r2 & r3 & r4 & r5 & r6 & E1 & E2 & E3 & E4 & E5 & E6 & H1 & H2 & H3 & H4 & H5 & H6).
  { do 6 eexists. do 6 (split; [reflexivity|]). unfold ata_rent. clear. lia. }
  unfold create_cost in Fl. rewrite <- E1, <- E2, <- E3, <- E4, <- E5, <- E6 in Fl.
  set (d1 := DMint (Mint (ca_nft_tp a) 0 0 (Some (ca_coll_mint a)) (Some (ca_coll_mint a)))).
  destruct (init_step E (ca_creator a) (ca_nft_mint a) MINT_SPACE d1 w (r2 + r3 + r4 + r5 + r6)) as (w1 & W1 & D1 & G1 & M1);
    [clear - H2 H3 H4 H5 H6; lia|done|done|done|done|rewrite <- E1; clear - Fl; lia|].
  destruct (create_ata_step E (ca_creator a) (ca_recipient_nft_ata a) (ca_recipient a) (ca_nft_mint a) (ca_nft_tp a) w1
    (Mint (ca_nft_tp a) 0 0 (Some (ca_coll_mint a)) (Some (ca_coll_mint a))) (r3 + r4 + r5 + r6)) as (w2 & W2 & D2 & G2 & M2);
    [clear - H2 H3 H4 H5 H6; lia|rewrite D1; by look|rewrite D1; by look|etransitivity; [exact L2|by apply M1, not_eq_sym]|done|rewrite <- E2; clear - G1; lia|exact Ana|rewrite D1; by look|done|].
  set (d3 := DStream (StreamData (Amounts 0 0 0 0 0) 0 0 0 false false (Timestamps 0 0 0) 0 false)).
  destruct (init_step E (ca_creator a) (ca_stream a) STREAM_SPACE d3 w2 (r4 + r5 + r6)) as (w3 & W3 & D3 & G3 & M3);
    [clear - H2 H3 H4 H5 H6; lia|rewrite D2, D1; by look|rewrite D2, D1; by look|etransitivity; [exact L3|etransitivity; [apply M1|apply M2]; side]|done|rewrite <- E3; clear - G2; lia|].
  destruct (create_ata_step E (ca_creator a) (ca_vault a) (ca_stream a) (ca_deposit_mint a) (ca_deposit_tp a) w3
    dm (r5 + r6)) as (w4 & W4 & D4 & G4 & M4);
    [clear - H2 H3 H4 H5 H6; lia|rewrite D3, D2, D1; by look|rewrite D3, D2, D1; by look|
     etransitivity; [exact L4|etransitivity; [apply M1|etransitivity; [apply M2|apply M3]]; side]|done|rewrite <- E4; clear - G3; lia|exact Av|rewrite D3, D2, D1; by look|done|].
  destruct (C49_nft_name (ca_nft_mint a)) as (_ & name & _ & Hname & Hnl & _).
  set (s := stream_create (ca_deposit_mint a) sb (p_cliff p) (p_cliff_unlock p) (p_deposit p) (p_end p)
             (p_salt p) (p_cancelable p) (ca_sender a) (p_start p) (p_start_unlock p)).
  set (w5 := set_dat (ca_stream a) (DStream s) w4).
  assert (wdat w5 = <[ca_stream a:=DStream s]> (<[ca_vault a:=DToken (TokAcc (ca_deposit_tp a) (ca_deposit_mint a) (ca_stream a) 0 false)]>
    (<[ca_stream a:=d3]> (<[ca_recipient_nft_ata a:=DToken (TokAcc (ca_nft_tp a) (ca_nft_mint a) (ca_recipient a) 0 false)]>
    (<[ca_nft_mint a:=d1]> (wdat w)))))) as D5 by (unfold w5; by rewrite wdat_set_dat, D4, D3, D2, D1).
  pose proof (mint_to_live (ca_nft_tp a) (ca_nft_mint a) (ca_recipient_nft_ata a) (ca_coll_mint a) 1 w5
    (Mint (ca_nft_tp a) 0 0 (Some (ca_coll_mint a)) (Some (ca_coll_mint a))) (TokAcc (ca_nft_tp a) (ca_nft_mint a) (ca_recipient a) 0 false)
    ltac:(rewrite D5; by look) ltac:(rewrite D5; by look) eq_refl eq_refl eq_refl eq_refl eq_refl ltac:(done) ltac:(done)) as W6.
  match type of W6 with _ = Ok ?x => set (w6 := x) in W6 end.
  assert (wdat w6 = <[ca_recipient_nft_ata a:=DToken (TokAcc (ca_nft_tp a) (ca_nft_mint a) (ca_recipient a) 1 false)]>
    (<[ca_nft_mint a:=DMint (Mint (ca_nft_tp a) 1 0 (Some (ca_coll_mint a)) (Some (ca_coll_mint a)))]> (wdat w5))) as D6 by done.
  assert (forall j, lam w6 j = lam w4 j) as M6 by done.
  destruct (create_metadata_step E (ca_creator a) (ca_metadata a) (ca_nft_mint a) (ca_coll_mint a) name NFT_SYMBOL NFT_METADATA_URI None w6
    (Mint (ca_nft_tp a) 1 0 (Some (ca_coll_mint a)) (Some (ca_coll_mint a))) mb r6) as (w7 & W7 & D7 & G7 & M7);
    [rewrite Hnl; apply le_n|vm_compute; lia|vm_compute; lia|rewrite D6; by look|done|exact Am|exact H6|rewrite D6, D5; by look|rewrite D6, D5; by look|
     rewrite M6; etransitivity; [exact L5|etransitivity; [apply M1|etransitivity; [apply M2|etransitivity; [apply M3|apply M4]]]; side]|done|
     rewrite M6, <- E5; clear - G4; lia|].
  destruct (create_master_edition_step E (ca_creator a) (ca_edition a) (ca_metadata a) (ca_nft_mint a) (ca_coll_mint a) w7
    (Mint (ca_nft_tp a) 1 0 (Some (ca_coll_mint a)) (Some (ca_coll_mint a))) name None None false eb) as (w8 & dd & W8 & D8);
    [rewrite D7, D6; by look|done|done|done|exact Rac|rewrite D7; by look|exact Ae|rewrite D7, D6, D5; by look|rewrite D7, D6, D5; by look|
     etransitivity; [exact L6|etransitivity; [apply M1|etransitivity; [apply M2|etransitivity; [apply M3|etransitivity; [apply M4|rewrite <- M6; apply M7]]]]; side]|done|
     rewrite <- E6; clear - G7; lia|].
  assert (exists w9, set_and_verify_collection E (ca_metadata a) (ca_coll_mint a) (ca_coll_mint a) (ca_coll_metadata a) (ca_coll_edition a) true w8 = Ok w9 /\
    wdat w9 = <[ca_coll_metadata a:=DMetadata (ca_coll_mint a) (ca_coll_mint a) cname ccol (Some (csz + 1)) csgn]>
      (<[ca_metadata a:=DMetadata (ca_nft_mint a) (ca_coll_mint a) name (Some (ca_coll_mint a)) None false]> (wdat w8))) as (w9 & W9 & D9).
  { unfold set_and_verify_collection.
    assert (wdat w8 !! ca_metadata a = Some (DMetadata (ca_nft_mint a) (ca_coll_mint a) name None None false)) as -> by (rewrite D8, D7; by look).
    assert (wdat w8 !! ca_coll_metadata a = Some (DMetadata (ca_coll_mint a) (ca_coll_mint a) cname ccol (Some csz) csgn)) as -> by (rewrite D8, D7, D6, D5; by look).
    assert (wdat w8 !! ca_coll_edition a = Some (DEdition (ca_coll_mint a))) as -> by (rewrite D8, D7, D6, D5; by look).
    rewrite !Z.eqb_refl. cbn [andb ensure rbind]. eexists. split; [reflexivity|]. by rewrite !wdat_set_dat. }
  set (w10 := set_dat (ca_nft_collection_data a) (DNftCollection (NftCollection (nc_total_supply nc + 1) (nc_bump nc))) w9).
  assert (wdat w10 = <[ca_nft_collection_data a:=DNftCollection (NftCollection (nc_total_supply nc + 1) (nc_bump nc))]> (wdat w9)) as D10 by done.
  assert (0 <= p_deposit p) as Rdep by (destruct (proj1 Rr) as [? ?]; clear - Rix; simpl in Rix; ranges; lia).
  assert (token_allows E w10 (ca_deposit_mint a) (ca_creator_ata a) (ca_vault a) (p_deposit p)) as Ral.
  { assert (wclock w10 = wclock w) as Hck; [|unfold token_allows; rewrite Hck; exact Rtok].
    change (wclock w10) with (wclock w9).
    pose proof (set_and_verify_collection_ok _ _ _ _ _ _ _ _ _ W9) as (? & ? & ? & ? & ? & ? & ? & ? & ? & ? & ? & _ & _ & _ & _ & _ & K9).
    pose proof (create_master_edition_ok _ _ _ _ _ _ _ _ _ W8) as (? & _ & _ & _ & _ & _ & _ & K8).
    pose proof (create_metadata_ok _ _ _ _ _ _ _ _ _ _ _ _ W7) as (_ & _ & _ & K7).
    pose proof (create_ata_ok _ _ _ _ _ _ _ _ W4) as (_ & _ & _ & _ & K4). pose proof (init_account_ok _ _ _ _ _ _ _ W3) as (_ & _ & K3 & _).
    pose proof (create_ata_ok _ _ _ _ _ _ _ _ W2) as (_ & _ & _ & _ & K2). pose proof (init_account_ok _ _ _ _ _ _ _ W1) as (_ & _ & K1 & _).
    rewrite K9, !wclock_set_dat, (ds_clock _ _ _ K8), (ds_clock _ _ _ K7). change (wclock w6) with (wclock w4).
    rewrite (ds_clock _ _ _ K4), (ds_clock _ _ _ K3), (ds_clock _ _ _ K2), (ds_clock _ _ _ K1). reflexivity. }
  destruct (transfer_live E (ca_deposit_tp a) (ca_creator_ata a) (ca_vault a) (ca_creator a) (ca_deposit_mint a) (p_deposit p) w10
    ct (TokAcc (ca_deposit_tp a) (ca_deposit_mint a) (ca_stream a) 0 false) dm) as (w11 & W11);
    [rewrite D10, D9, D8, D7, D6, D5; by look|rewrite D10, D9, D8, D7, D6, D5; by look|rewrite D10, D9, D8, D7, D6, D5; by look|
     exact HE|exact Rdep|exact Ral|done|done|done|done|done|done|done|done|done| |].
  { exact (proj2 Rr). }
  eexists w11, _. unfold lockup_exec. rewrite Rix. cbn [ensure rbind]. unfold create_with_timestamps, create_accounts.
  rewrite (check_signer_live _ _ Rsg), (proj2 (load_token_ok _ _ _) Ct), (proj2 (load_nft_collection_ok _ _ _) Cnc), (proj2 (load_mint_ok _ _ _) Cm),
    (proj2 (load_mint_ok _ _ _) Dm). cbn [rbind].
  rewrite (check_seeds_live _ _ _ _ _ An). cbn [rbind]. unfold create_mint. fold d1. rewrite W1. cbn [rbind]. rewrite W2. cbn [rbind].
  rewrite (check_seeds_live _ _ _ _ _ As). cbn [rbind]. fold d3. rewrite W3. cbn [rbind]. rewrite W4. cbn [rbind].
  rewrite (check_ata_live _ _ _ _ _ _ Ctp Cto Aca). cbn [rbind]. apply fpa_cpa in Anc as [Anc _]. rewrite (check_seeds_bump_live _ _ _ _ _ Anc). cbn [rbind].
  rewrite (check_seeds_live _ _ _ _ _ Ace), (check_seeds_live _ _ _ _ _ Acm), (check_seeds_live _ _ _ _ _ Ac). cbn [rbind].
  unfold tprog_eqb. rewrite bool_decide_true by done. cbn [ensure rbind].
  rewrite (check_seeds_live _ _ _ _ _ Ae), (check_seeds_live _ _ _ _ _ Am). cbn [rbind].
  unfold create_handler. fold s.
  assert (check_create (p_deposit p) (p_start p) (p_cliff p) (p_end p) (p_start_unlock p) (p_cliff_unlock p) = Ok tt) as ->.
  { apply (C04_requirements p); [exact (proj1 Rr)|done]. }
  cbn [rbind]. fold w5. unfold nft_create_stream. rewrite Hname. cbn [rbind]. apply fpa_cpa in Ac as [Ac _]. rewrite Ac. rewrite bool_decide_true by done.
  rewrite W6. cbn [rbind]. rewrite W7. cbn [rbind]. rewrite W8. cbn [rbind]. rewrite W9. cbn [rbind].
  rewrite u64_add_le by exact Cns. cbn [rbind]. fold w10. rewrite bool_decide_true by done. rewrite W11. cbn [rbind]. reflexivity.
Qed.

(** ** C47: creation succeeds *)
Theorem C47_create_succeeds : forall E w sg a p, env_ok E -> reachable E w -> create_ready E w sg a p ->
  exists w' evs, lockup_exec E sg (LCreateTs a p) w = Ok (w', evs).
Proof. intros E w sg a p HE Hr. apply create_live; [done|]. by apply reachable_inv. Qed.

(** The choice of the NFT's token program is not free: where Metaplex refuses it, no create succeeds. *)
Theorem C47_nft_program : forall E w sg a, md_accepts E (ca_nft_tp a) = false ->
  (forall p, exists e, lockup_exec E sg (LCreateTs a p) w = Err e) /\
  (forall q, exists e, lockup_exec E sg (LCreateDur a q) w = Err e).
Proof.
  intros E w sg a Hno.
  assert (forall ix w' evs, lockup_exec E sg ix w = Ok (w', evs) -> (exists p, ix = LCreateTs a p) \/ (exists q, ix = LCreateDur a q) -> False) as Hf.
  { intros ix w' evs Hx Hix. apply lockup_exec_effect in Hx as [_ Heff].
    inversion Heff as [|? b ? ? ? ? ? ? ? ? ? ? ? ? Hb ? F| | |? ? ? ? ? ? ? ? ? ? ? ? ? ? [?|[? _]]|]; subst; try (destruct Hix as [[? ?]|[? ?]]; discriminate).
    assert (b = a) as -> by (destruct Hix as [[? X]|[? X]], Hb as [Y|(? & Y & _)]; congruence).
    rewrite (rf_accepts _ _ _ _ _ _ _ _ _ _ _ _ _ _ _ _ F) in Hno. discriminate Hno. }
  split.
  - intros p. destruct (lockup_exec E sg (LCreateTs a p) w) as [[w' evs]|e] eqn:Hx; [|by exists e].
    exfalso. eapply Hf; [exact Hx|left; by exists p].
  - intros q. destruct (lockup_exec E sg (LCreateDur a q) w) as [[w' evs]|e] eqn:Hx; [|by exists e].
    exfalso. eapply Hf; [exact Hx|right; by exists q].
Qed.

(** With durations: the same account and fund requirements, for the times the durations stand for now. *)
Theorem C47_create_durations_succeeds : forall E w sg a q, env_ok E -> reachable E w ->
  lockup_ix_ok (LCreateDur a q) = true -> durations_fit q (get_current_time w) ->
  create_ready E w sg a (as_timestamps q (get_current_time w)) ->
  exists w' evs, lockup_exec E sg (LCreateDur a q) w = Ok (w', evs).
Proof.
  intros E w sg a q HE Hr Hix Hf Hk. rewrite (proj1 (C05_durations E sg a q w Hix) Hf). by apply C47_create_succeeds.
Qed.

(** A campaign. The strings: at most 32 bytes of name, and at most 91 bytes of name and IPFS CID together. *)
Record campaign_ready (E : env) (w : world) (sg : list key) (a : campaign_accs) (g : campaign_args) : Prop := {
  nr_signed : na_creator a ∈ sg;
  nr_ix : merkle_ix_ok (MCreateCampaign a g) = true;
  nr_size : Z.of_nat (length (g_name g)) + Z.of_nat (length (g_ipfs g)) <= 91;
  nr_campaign : exists b, find_program_address E PMerkle
    (campaign_seeds (na_creator a) (g_root g) (g_start g) (g_expiration g) (g_name g) (na_mint a)) = Ok (na_campaign a, b);
  nr_vault : ata_address E (na_campaign a) (na_mint a) (na_tp a) = Ok (na_vault a);
  nr_mint : exists m, wdat w !! na_mint a = Some (DMint m) /\ m_prog m = na_tp a;
  nr_funds : wdat w !! na_creator a = None /\
    Z.max 1 (rent_min E CAMPAIGN_SPACE) + ata_rent E (na_mint a) (na_tp a) <= lam w (na_creator a);
  nr_distinct : NoDup [na_creator a; na_campaign a; na_vault a];
  nr_new : wdat w !! na_campaign a = None /\ 0 <= lam w (na_campaign a) /\ wdat w !! na_vault a = None /\ 0 <= lam w (na_vault a) }.

Theorem C47_campaign_succeeds : forall E w sg a g, campaign_ready E w sg a g ->
  exists w' evs, merkle_exec E sg (MCreateCampaign a g) w = Ok (w', evs).
Proof.
  intros E w sg a g [Hs Hix Hsz [b Ha] Hv (m & Hm & Hp) [Hd Hl] Hnd (N1 & L1 & N2 & L2)].
  rewrite !NoDup_cons, !not_elem_of_cons in Hnd. destruct Hnd as ((P1 & P2 & _) & (P3 & _) & _).
  assert (length (g_root g) = 32%nat) as Hroot.
  { clear - Hix. simpl in Hix. ranges. unfold is_hash in *. repeat match goal with H : _ && _ = true |- _ => apply andb_prop in H; destruct H end.
    match goal with H : (Z.of_nat (length (g_root g)) =? 32) = true |- _ => apply Z.eqb_eq in H; clear - H; lia end. }
  assert (0 <= ata_rent E (na_mint a) (na_tp a)) as Hat by (unfold ata_rent; clear; lia).
  destruct (init_step E (na_creator a) (na_campaign a) CAMPAIGN_SPACE (DCampaign (Campaign 0 0 0 0 0 0 [] (repeat 0 32) [])) w
    (ata_rent E (na_mint a) (na_tp a))) as (w1 & W1 & D1 & G1 & M1); [done..|].
  destruct (create_ata_step E (na_creator a) (na_vault a) (na_campaign a) (na_mint a) (na_tp a) w1 m 0) as (w2 & W2 & D2 & _);
    [done|rewrite D1; by look|rewrite D1; by look|etransitivity; [exact L2|apply M1; side]|done|clear - G1; lia|exact Hv|rewrite D1; by look|done|].
  eexists _, _. unfold merkle_exec. rewrite Hix. cbn [ensure rbind]. unfold create_campaign.
  rewrite (check_signer_live _ _ Hs), (proj2 (load_mint_ok _ _ _) Hm). cbn [rbind].
  rewrite (check_seeds_live _ _ _ _ _ Ha). cbn [rbind]. rewrite W1. cbn [rbind]. rewrite W2. cbn [rbind].
  unfold tprog_eqb. rewrite bool_decide_true by done. cbn [ensure rbind].
  match goal with |- context [campaign_size ?c <=? CAMPAIGN_SPACE] => assert (campaign_size c <= CAMPAIGN_SPACE) as Hz end.
  { unfold campaign_size, CAMPAIGN_SPACE, CAMPAIGN_IPFS_CID_SIZE, CAMPAIGN_NAME_SIZE. cbn [c_ipfs c_root c_name]. rewrite Hroot.
    clear - Hsz. simpl Z.of_nat at 2. lia. }
  rewrite (proj2 (Z.leb_le _ _) Hz). cbn [ensure rbind]. reflexivity.
Qed.

(** ** ... but anyone can get there first *)

(** Nothing at an occupied vault address is ever removed. *)
Lemma vault_occupied E w v t p : env_ok E -> (p = PLockup \/ p = PMerkle) -> wdat w !! v = Some (DToken t) -> pda_of E p (t_owner t) = true ->
  ata_address E (t_owner t) (t_mint t) (t_prog t) = Ok v ->
  forall w', later E w w' -> exists t', wdat w' !! v = Some (DToken t') /\ t_owner t' = t_owner t /\ t_mint t' = t_mint t /\ t_prog t' = t_prog t.
Proof.
  intros HE Hp Hv Ho Ha w' [tr Hr]. induction Hr as [|tr w1 a evs w2 Hr IH Hst]; [by exists t|].
  destruct IH as (t1 & H1 & O1 & M1 & P1). inversion Hst as [sg ix ? ? Hsg Hx|sg ix ? ? Hsg Hx|? [] _]; subst.
  - destruct (lockup_frame _ _ _ _ _ _ HE Hsg Hx) as (S & F & _). destruct (fr_tokens _ _ _ _ _ F _ _ H1) as (t2 & ? & (? & ? & ? & ?) & _).
    exists t2. split_and!; congruence.
  - destruct (merkle_frame _ _ _ _ _ _ HE Hsg Hx) as (S & F & _). destruct (fr_tokens _ _ _ _ _ F _ _ H1) as (t2 & ? & (? & ? & ? & ?) & _).
    exists t2. split_and!; congruence.
  - assert (untouched E p w1 w2) as Hu by (destruct Hp; by subst).
    destruct (u_vault _ _ _ _ Hu _ _ H1) as (t2 & ? & ? & ? & ? & ?); [congruence|congruence|]. exists t2. split_and!; congruence.
Qed.

(** Creating an empty associated token account is something others may do. *)
Lemma create_ata_others E payer k owner mintk tp w w' : env_ok E -> token_sane E w -> keys_sane w -> key_ok owner -> key_ok mintk ->
  create_ata E payer k owner mintk tp w = Ok w' -> others_step E w w'.
Proof.
  intros HE [S1 S2] Hks Ho Hm H. apply create_ata_ok in H as (Hk & Ha & Hne & (m & Hmk & Hmp) & Hds). pose proof (ds_dat _ _ _ Hds) as Hd. pose proof (ds_mono _ _ _ Hds) as Hmono.
  assert (forall p, p = PLockup \/ p = PMerkle -> untouched E p w w') as Hu.
  { intros p Hp. split.
    - intros i d Hi _. split; [|apply Hmono; congruence]. rewrite Hd, lookup_insert_ne; [done|congruence].
    - intros i d Hi Hown. rewrite Hd in Hi. apply lookup_insert_Some in Hi as [[_ <-]|[_ Hi]]; [done|exact Hi].
    - intros i Hpi Hi. rewrite Hd, lookup_insert_ne; [done|]. intros <-. destruct (ata_pda _ _ _ _ _ HE Ha) as [Hat _].
      pose proof (eo_disjoint _ HE _ _ _ Hpi Hat). destruct Hp; congruence.
    - intros i t Hi _ _. exists t. rewrite Hd, lookup_insert_ne by congruence. split_and!; try done. }
  split; [apply Hu; by left|apply Hu; by right| | | |].
  - intros i mm au Hi Hau _. exists mm. rewrite Hd, lookup_insert_ne by congruence. split_and!; try done.
  - split.
    + intros i t. rewrite Hd. intros [[_ [= <-]]|[_ Hi]]%lookup_insert_Some; [done|exact (S1 _ _ Hi)].
    + intros i Hi. specialize (S2 i Hi). rewrite total_balance_sum in *. rewrite Hd, tok_sum_insert_token by done. cbn [t_mint t_amount].
      assert (supply w' i = supply w i) as ->.
      { unfold supply. rewrite Hd. destruct (decide (k = i)) as [<-|]; [by rewrite lookup_insert, Hk|by rewrite lookup_insert_ne]. }
      destruct (mintk =? i); lia.
  - intros i t. rewrite Hd. intros [[<- [= <-]]|[_ Hi]]%lookup_insert_Some _; [right; exact Ha|left; exists t; split; [exact Hi|done]].
  - intros i t. rewrite Hd. intros [[_ [= <-]]|[_ Hi]]%lookup_insert_Some; [done|exact (Hks _ _ Hi)].
Qed.

(** Whoever creates the associated token account of a stream's future address blocks that (sender, salt) with that token
    for good, at the price of the account's rent. *)
Theorem C47_front_run_refuted : forall E w attacker nft stream mintk tp v b w1, env_ok E -> reachable E w -> key_ok mintk ->
  find_program_address E PLockup (stream_seeds nft) = Ok (stream, b) ->
  create_ata E attacker v stream mintk tp w = Ok w1 ->
  others_step E w w1 /\ reachable E w1 /\
  forall w2, later E w1 w2 -> forall sg a, ca_stream a = stream -> ca_deposit_mint a = mintk -> ca_deposit_tp a = tp ->
    (forall p, exists e, lockup_exec E sg (LCreateTs a p) w2 = Err e) /\
    (forall q, exists e, lockup_exec E sg (LCreateDur a q) w2 = Err e).
Proof.
  intros E w x nft stream mintk tp v b w1 HE Hr Hk Hs Hc.
  destruct (fpa_pda _ _ _ _ _ HE Hs) as [Hps Hks].
  assert (others_step E w w1) as Ho.
  { eapply create_ata_others; [exact HE|apply (inv_sane _ _ (reachable_inv _ _ HE Hr))|exact (reachable_keys _ _ HE Hr)|exact Hks|exact Hk|exact Hc]. }
  split; [exact Ho|]. assert (step E any_clock w AOthers [] w1) as Hst by exact (step_others _ _ _ _ Ho I).
  split. { eapply reachable_later; [exact Hr|]. by eapply step_later. }
  intros w2 Hl sg a Es Em Et. apply create_ata_ok in Hc as (_ & Ha & _ & _ & Hd).
  assert (wdat w1 !! v = Some (DToken (TokAcc tp mintk stream 0 false))) as Hv by (rewrite (ds_dat _ _ _ Hd); apply lookup_insert).
  destruct (vault_occupied E w1 v _ PLockup HE (or_introl eq_refl) Hv Hps Ha w2 Hl) as (t2 & Hv2 & _).
  assert (forall p ct nc cm dm sb s name c0 c1 w' evs, ~ create_facts E sg a p w2 w' evs ct nc cm dm sb s name c0 c1) as Hno.
  { intros p ct nc cm dm sb s name c0 c1 w' evs F.
    pose proof (rf_vault_addr _ _ _ _ _ _ _ _ _ _ _ _ _ _ _ _ F) as Hva. pose proof (rf_fresh_vault _ _ _ _ _ _ _ _ _ _ _ _ _ _ _ _ F) as Hf.
    rewrite Es, Em, Et, Ha in Hva. injection Hva as Hva. rewrite <- Hva, Hv2 in Hf. discriminate. }
  split.
  - intros p. destruct (lockup_exec E sg (LCreateTs a p) w2) as [[w' evs]|e] eqn:Hx; [|by exists e]. exfalso.
    apply exec_create_inv in Hx as (_ & _ & ct & nc & cm & dm & sb & s & name & c0 & c1 & F). by eapply Hno.
  - intros q. destruct (lockup_exec E sg (LCreateDur a q) w2) as [[w' evs]|e] eqn:Hx; [|by exists e]. exfalso.
    apply lockup_exec_effect in Hx as [_ Heff]. inversion Heff as [| ? a' p' ct nc cm dm sb s name c0 c1 ? ? Hix Hargs F | | |? ? ? ? ? ? ? ? ? ? ? ? ? ? Hix |]; subst.
    + destruct Hix as [?|(q' & [= <- <-] & _)]; [done|]. by eapply Hno.
    + destruct Hix as [?|[? _]]; done.
Qed.
Theorem C47_front_run_campaign_refuted : forall E w attacker x campaign mintk tp v b w1, env_ok E -> reachable E w -> key_ok mintk ->
  find_program_address E PMerkle (merkle_seeds x) = Ok (campaign, b) ->
  create_ata E attacker v campaign mintk tp w = Ok w1 ->
  others_step E w w1 /\ reachable E w1 /\
  forall w2, later E w1 w2 -> forall sg a g, na_campaign a = campaign -> na_mint a = mintk -> na_tp a = tp ->
    exists e, merkle_exec E sg (MCreateCampaign a g) w2 = Err e.
Proof.
  intros E w x y campaign mintk tp v b w1 HE Hr Hk Hs Hc.
  destruct (fpa_pda _ _ _ _ _ HE Hs) as [Hps Hks].
  assert (others_step E w w1) as Ho.
  { eapply create_ata_others; [exact HE|apply (inv_sane _ _ (reachable_inv _ _ HE Hr))|exact (reachable_keys _ _ HE Hr)|exact Hks|exact Hk|exact Hc]. }
  split; [exact Ho|]. assert (step E any_clock w AOthers [] w1) as Hst by exact (step_others _ _ _ _ Ho I).
  split. { eapply reachable_later; [exact Hr|]. by eapply step_later. }
  intros w2 Hl sg a g Es Em Et. apply create_ata_ok in Hc as (_ & Ha & _ & _ & Hd).
  assert (wdat w1 !! v = Some (DToken (TokAcc tp mintk campaign 0 false))) as Hv by (rewrite (ds_dat _ _ _ Hd); apply lookup_insert).
  destruct (vault_occupied E w1 v _ PMerkle HE (or_intror eq_refl) Hv Hps Ha w2 Hl) as (t2 & Hv2 & _).
  destruct (merkle_exec E sg (MCreateCampaign a g) w2) as [[w' evs]|e] eqn:Hx; [|by exists e]. exfalso.
  unfold merkle_exec in Hx. inv_all Hx. apply create_campaign_inv in Hx as (m & b' & _ & _ & _ & _ & _ & Hf & _ & Hva & _).
  rewrite Es, Em, Et, Ha in Hva. injection Hva as Hva. rewrite <- Hva, Hv2 in Hf. discriminate.
Qed.

(** ** Examples *)
Definition dep3 : create_args := CreateArgs 3 1000 1100 1200 2000 100 50 true.
Lemma new_from_check w l : forallb (fun k => match wdat w !! k with None => true | _ => false end && (0 <=? lam w k)) l = true ->
  forall k, k ∈ l -> wdat w !! k = None /\ 0 <= lam w k.
Proof.
  intros H k Hk. rewrite forallb_forall in H. apply elem_of_list_In, H in Hk. apply andb_prop in Hk as [H1 H2%Z.leb_le].
  by destruct (wdat w !! k).
Qed.
Example C47_example : reachable E0 w1 /\ create_ready E0 w1 [kSender] (create_for 3) dep3.
Proof.
  split; [apply (history_reach _ _ _ w1_hist)|]. split.
  - left.
  - vm_compute. reflexivity.
  - reflexivity.
  - split; vm_compute; intuition congruence.
  - split; [exists 255|exists 255| | |exists 255|exists 255]; vm_compute; reflexivity.
  - split.
    + exists (NftCollection 2 255). split; vm_compute; reflexivity.
    + split; [exists 255; vm_compute; reflexivity|]. eexists. vm_compute. reflexivity.
    + split; [exists 255; vm_compute; reflexivity|]. eexists _, _, _, _. vm_compute. reflexivity.
    + split; [exists 255; vm_compute; reflexivity|]. vm_compute. reflexivity.
  - eexists. split; vm_compute; reflexivity.
  - split; [vm_compute; reflexivity|]. eexists. split; [vm_compute; reflexivity|]. split; [vm_compute; reflexivity|].
    split; [vm_compute; reflexivity|]. split; [vm_compute; reflexivity|]. split; [vm_compute; reflexivity|]. vm_compute. congruence.
  - vm_compute. congruence.
  - split; [vm_compute; reflexivity|]. vm_compute. congruence.
  - apply (bool_decide_unpack _). vm_compute. exact I.
  - apply new_from_check. vm_compute. reflexivity.
Qed.
(** The same call after somebody else created the vault. *)
Example C47_front_run_example :
  is_ok (create_ata E0 kOther (kVault kSender 3) (kStream kSender 3) kToken SplToken w1) = true /\
  (let! w' := create_ata E0 kOther (kVault kSender 3) (kStream kSender 3) kToken SplToken w1 in
   lockup_exec E0 [kSender] (LCreateTs (create_for 3) dep3) w') = Err ECpi /\
  is_ok (lockup_exec E0 [kSender] (LCreateTs (create_for 3) dep3) w1) = true.
Proof. split; [vm_compute; reflexivity|]. split; vm_compute; reflexivity. Qed.
Example C47_campaign_example : campaign_ready E0 w1 [kSender] (camp_accs 1500 9) (camp_args 1500 9).
Proof.
  split.
  - left.
  - vm_compute. reflexivity.
  - vm_compute. congruence.
  - exists 255. vm_compute. reflexivity.
  - vm_compute. reflexivity.
  - eexists. split; vm_compute; reflexivity.
  - split; [vm_compute; reflexivity|]. vm_compute. congruence.
  - apply (bool_decide_unpack _). vm_compute. exact I.
  - split; [vm_compute; reflexivity|]. split; [vm_compute; congruence|]. split; [vm_compute; reflexivity|]. vm_compute. congruence.
Qed.

Print Assumptions C47_create_succeeds.
Print Assumptions C47_campaign_succeeds.
Print Assumptions C47_front_run_refuted.
