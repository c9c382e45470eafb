(** Inversion of the two create instructions and of initialize. *)
From Verif Require Export Inversion.

(** Data after a create; [got] is what arrives in the vault. *)
Definition create_map (D : gmap key adata) (a : create_accs) (s : stream_data) (name : bytes) (ct : tokacc)
    (nc : nft_collection) (cmd : adata) (got : Z) : gmap key adata :=
  <[ca_vault a := DToken (TokAcc (ca_deposit_tp a) (ca_deposit_mint a) (ca_stream a) got false)]>
  (<[ca_creator_ata a := DToken (with_amount ct (t_amount ct - deposited (s_amounts s)))]>
  (<[ca_nft_collection_data a := DNftCollection (NftCollection (nc_total_supply nc + 1) (nc_bump nc))]>
  (<[ca_coll_metadata a := cmd]>
  (<[ca_metadata a := DMetadata (ca_nft_mint a) (ca_coll_mint a) name (Some (ca_coll_mint a)) None false]>
  (<[ca_edition a := DEdition (ca_nft_mint a)]>
  (<[ca_nft_mint a := DMint (Mint (ca_nft_tp a) 1 0 (Some (ca_edition a)) (Some (ca_edition a)))]>
  (<[ca_recipient_nft_ata a := DToken (TokAcc (ca_nft_tp a) (ca_nft_mint a) (ca_recipient a) 1 false)]>
  (<[ca_stream a := DStream s]> D)))))))).

Record create_facts (E : env) (sg : list key) (a : create_accs) (p : create_args) (w w' : world)
    (evs : list event) (ct : tokacc) (nc : nft_collection) (cm dm : mint) (sbump : Z) (s : stream_data)
    (name : bytes) (cmd0 cmd : adata) : Prop := {
  rf_signer : ca_creator a ∈ sg;
  rf_accepts : md_accepts E (ca_nft_tp a) = true;
  rf_creator_ata : wdat w !! ca_creator_ata a = Some (DToken ct);
  rf_creator_ata_addr : ata_address E (ca_creator a) (ca_deposit_mint a) (ca_deposit_tp a) = Ok (ca_creator_ata a);
  rf_creator_owner : t_owner ct = ca_creator a;
  rf_creator_mint : t_mint ct = ca_deposit_mint a;
  rf_creator_prog : t_prog ct = ca_deposit_tp a;
  rf_funds : p_deposit p <= t_amount ct;
  rf_nc : wdat w !! ca_nft_collection_data a = Some (DNftCollection nc);
  rf_nc_addr : create_program_address E PLockup [s_NFT_COLLECTION_DATA] (nc_bump nc) = Some (ca_nft_collection_data a);
  rf_nc_room : nc_total_supply nc + 1 <= U64_MAX;
  rf_coll_mint : wdat w !! ca_coll_mint a = Some (DMint cm);
  rf_coll_mint_addr : exists b, find_program_address E PLockup [s_NFT_COLLECTION_MINT] = Ok (ca_coll_mint a, b);
  rf_deposit_mint : wdat w !! ca_deposit_mint a = Some (DMint dm);
  rf_deposit_prog : m_prog dm = ca_deposit_tp a;
  rf_nft_mint_addr : exists b, find_program_address E PLockup (nft_mint_seeds (ca_sender a) (p_salt p)) = Ok (ca_nft_mint a, b);
  rf_nft_ata_addr : ata_address E (ca_recipient a) (ca_nft_mint a) (ca_nft_tp a) = Ok (ca_recipient_nft_ata a);
  rf_stream_addr : find_program_address E PLockup (stream_seeds (ca_nft_mint a)) = Ok (ca_stream a, sbump);
  rf_vault_addr : ata_address E (ca_stream a) (ca_deposit_mint a) (ca_deposit_tp a) = Ok (ca_vault a);
  rf_fresh_nft : wdat w !! ca_nft_mint a = None;
  rf_fresh_nft_ata : wdat w !! ca_recipient_nft_ata a = None;
  rf_fresh_stream : wdat w !! ca_stream a = None;
  rf_fresh_vault : wdat w !! ca_vault a = None;
  rf_fresh_metadata : wdat w !! ca_metadata a = None;
  rf_fresh_edition : wdat w !! ca_edition a = None;
  rf_metadata_addr : exists b, find_program_address E PMetadata (metadata_seeds E (ca_nft_mint a)) = Ok (ca_metadata a, b);
  rf_edition_addr : exists b, find_program_address E PMetadata (edition_seeds E (ca_nft_mint a)) = Ok (ca_edition a, b);
  rf_distinct : NoDup [ca_nft_mint a; ca_recipient_nft_ata a; ca_stream a; ca_vault a; ca_metadata a; ca_edition a];
  rf_coll_md : wdat w !! ca_coll_metadata a = Some cmd0;
  rf_coll_md_kind : exists cm cua cnm ccol csz csgn, cmd0 = DMetadata cm cua cnm ccol (Some csz) csgn /\
      cmd = DMetadata cm cua cnm ccol (Some (csz + 1)) csgn;
  rf_check : check_create (p_deposit p) (p_start p) (p_cliff p) (p_end p) (p_start_unlock p) (p_cliff_unlock p) = Ok tt;
  rf_s : s = stream_create (ca_deposit_mint a) sbump (p_cliff p) (p_cliff_unlock p) (p_deposit p) (p_end p)
             (p_salt p) (p_cancelable p) (ca_sender a) (p_start p) (p_start_unlock p);
  rf_name : nft_name (ca_nft_mint a) = Ok name;
  rf_evs : evs = [EvCreateStream (p_salt p) (m_decimals dm) (ca_deposit_mint a) (ca_recipient a) (ca_stream a) (ca_nft_mint a)];
  rf_step : data_step w w' (create_map (wdat w) a s name ct nc cmd
    (received E (ca_deposit_mint a) (ca_creator_ata a) (ca_vault a) (wclock w) (p_deposit p))) }.

Lemma ins_none {A} (D : gmap key A) k d i : <[k:=d]> D !! i = None -> i <> k /\ D !! i = None.
Proof. intros H. apply lookup_insert_None in H as [? ?]. auto. Qed.
Lemma some_none_ne {A} (D : gmap key A) i j x : D !! i = Some x -> D !! j = None -> i <> j.
Proof. intros ? ? ->. congruence. Qed.

Ltac neq := first [assumption | apply not_eq_sym; assumption].
(** Lookups in updated maps, using only the disequalities in the context. *)
Ltac mlook_in H :=
  repeat match type of H with
  | context [<[?k:=_]> _ !! ?k] => rewrite lookup_insert in H
  | context [<[?k:=_]> _ !! ?i] => rewrite (lookup_insert_ne _ k i) in H by neq
  end.
Ltac mlook :=
  repeat match goal with
  | |- context [<[?k:=_]> _ !! ?k] => rewrite lookup_insert
  | |- context [<[?k:=_]> _ !! ?i] => rewrite (lookup_insert_ne _ k i) by neq
  end.
Ltac nodup_neq H :=
  let X := fresh in
  repeat (apply NoDup_cons in H as [X H]; repeat (apply not_elem_of_cons in X as [? X]); clear X); clear H.
Ltac nodup_solve :=
  repeat (apply NoDup_cons; split); [..|apply NoDup_nil; done];
  repeat (apply not_elem_of_cons; split); try (apply not_elem_of_nil); neq.
(** Split on [i] being one of the listed keys. *)
Ltac key_case i k := destruct (decide (i = k)) as [->|?]; [mlook; try done|].
Ltac not_key H i k := assert (i <> k) by (intros Heq; rewrite Heq in H; mlook_in H; congruence).
Lemma ins_some {A} (D : gmap key A) k d i : D !! i <> None -> <[k:=d]> D !! i <> None.
Proof. intros H. destruct (decide (k = i)) as [->|]; [by rewrite lookup_insert | by rewrite lookup_insert_ne]. Qed.
Ltac somek := first [assumption | rewrite lookup_insert; discriminate | apply ins_some; somek].

Lemma create_accounts_inv E sg a salt w w1 sbump mbump nc dm :
  create_accounts E sg a salt w = Ok (w1, sbump, mbump, nc, dm) ->
  exists ct cm,
  ca_creator a ∈ sg /\ wdat w !! ca_creator_ata a = Some (DToken ct) /\
  ata_address E (ca_creator a) (ca_deposit_mint a) (ca_deposit_tp a) = Ok (ca_creator_ata a) /\
  t_owner ct = ca_creator a /\ t_prog ct = ca_deposit_tp a /\
  wdat w !! ca_nft_collection_data a = Some (DNftCollection nc) /\
  create_program_address E PLockup [s_NFT_COLLECTION_DATA] (nc_bump nc) = Some (ca_nft_collection_data a) /\
  wdat w !! ca_coll_mint a = Some (DMint cm) /\
  find_program_address E PLockup [s_NFT_COLLECTION_MINT] = Ok (ca_coll_mint a, mbump) /\
  wdat w !! ca_deposit_mint a = Some (DMint dm) /\ m_prog dm = ca_deposit_tp a /\
  (exists b, find_program_address E PLockup (nft_mint_seeds (ca_sender a) salt) = Ok (ca_nft_mint a, b)) /\
  ata_address E (ca_recipient a) (ca_nft_mint a) (ca_nft_tp a) = Ok (ca_recipient_nft_ata a) /\
  find_program_address E PLockup (stream_seeds (ca_nft_mint a)) = Ok (ca_stream a, sbump) /\
  ata_address E (ca_stream a) (ca_deposit_mint a) (ca_deposit_tp a) = Ok (ca_vault a) /\
  wdat w !! ca_nft_mint a = None /\ wdat w !! ca_recipient_nft_ata a = None /\
  wdat w !! ca_stream a = None /\ wdat w !! ca_vault a = None /\
  NoDup [ca_nft_mint a; ca_recipient_nft_ata a; ca_stream a; ca_vault a] /\
  ca_creator a <> ca_nft_mint a /\ ca_creator a <> ca_recipient_nft_ata a /\
  ca_creator a <> ca_stream a /\ ca_creator a <> ca_vault a /\
  data_step w w1
   (<[ca_vault a := DToken (TokAcc (ca_deposit_tp a) (ca_deposit_mint a) (ca_stream a) 0 false)]>
   (<[ca_stream a := DStream (StreamData (Amounts 0 0 0 0 0) 0 0 0 false false (Timestamps 0 0 0) 0 false)]>
   (<[ca_recipient_nft_ata a := DToken (TokAcc (ca_nft_tp a) (ca_nft_mint a) (ca_recipient a) 0 false)]>
   (<[ca_nft_mint a := DMint (Mint (ca_nft_tp a) 0 0 (Some (ca_coll_mint a)) (Some (ca_coll_mint a)))]> (wdat w))))).
Proof.
  unfold create_accounts. intros H. inv_all H. loads. injection H as <- <- <- <- <-. bools.
  repeat match goal with
  | H : create_mint _ _ _ _ _ _ _ _ = Ok _ |- _ => apply create_mint_ok in H as (Hn1 & Hp1 & Hs1)
  end.
  match goal with H : create_ata _ _ (ca_recipient_nft_ata a) _ _ _ _ = Ok _ |- _ => apply create_ata_ok in H as (Hn2 & Ha2 & Hp2 & _ & Hs2) end.
  match goal with H : init_account _ _ (ca_stream a) _ _ _ = Ok _ |- _ => apply init_account_ok in H as (Hn3 & Hp3 & Hs3 & _) end.
  match goal with H : create_ata _ _ (ca_vault a) _ _ _ _ = Ok _ |- _ => apply create_ata_ok in H as (Hn4 & Ha4 & Hp4 & _ & Hs4) end.
  rewrite (ds_dat _ _ _ Hs1) in Hn2, Hs2.
  rewrite (ds_dat _ _ _ Hs2) in Hn3, Hs3.
  rewrite (ds_dat _ _ _ Hs3) in Hn4, Hs4.
  repeat match goal with H : <[_:=_]> _ !! _ = None |- _ => apply ins_none in H as [? H] end.
  exists x0, x2. split_and!; try assumption; try (exists x4; assumption).
  - nodup_solve.
  - pose proof (ds_dat _ _ _ Hs1) as E1. pose proof (ds_dat _ _ _ Hs2) as E2. pose proof (ds_dat _ _ _ Hs3) as E3.
    eapply data_step_trans; [exact Hs1 | | intros; by apply ins_some].
    eapply data_step_trans; [exact Hs2 | | intros ?; rewrite E1; by apply ins_some].
    eapply data_step_trans; [exact Hs3 | exact Hs4 | intros ?; rewrite E2; by apply ins_some].
Qed.

Lemma create_handler_inv E sg a p w w1 sbump mbump nc dm w' evs :
  create_accounts E sg a (p_salt p) w = Ok (w1, sbump, mbump, nc, dm) ->
  create_handler E sg a p sbump mbump nc dm w1 = Ok (w', evs) ->
  exists ct cm s name cmd0 cmd, create_facts E sg a p w w' evs ct nc cm dm sbump s name cmd0 cmd.
Proof.
  intros Ha H.
  apply create_accounts_inv in Ha as (ct & cm & ? & Hct & ? & ? & ? & Hnc & ? & Hcm & ? & Hdm & ? & ? & ? & ? & ? &
    Hf1 & Hf2 & Hf3 & Hf4 & Hnd & ? & ? & ? & ? & Hs1).
  unfold create_handler in H. inv_all H. loads. injection H as <- <-. subst.
  unfold nft_create_stream in He0. inv_all He0.
  rename He1 into Hname, He3 into Hmint, He4 into Hmd, He5 into Hed, He0 into Hsv, He2 into Ht.
  set (s := stream_create _ _ _ _ _ _ _ _ _ _ _) in *.
  apply mint_to_ok in Hmint as (m1 & t1 & Hm1 & Ht1 & ? & ? & ? & ? & ? & ? & ? & ? & ->).
  nodup_neq Hnd.
  rewrite wdat_set_dat, (ds_dat _ _ _ Hs1) in Hm1, Ht1.
  mlook_in Hm1. mlook_in Ht1. injection Hm1 as <-. injection Ht1 as <-.
  apply create_metadata_ok in Hmd as (Hfmd & ? & ? & Hs2).
  apply create_master_edition_ok in Hed as (m2 & Hm2 & Hfed & ? & ? & ? & [_ Hacc] & Hs3).
  rewrite !wdat_set_dat, (ds_dat _ _ _ Hs1) in Hfmd, Hs2.
  rewrite (ds_dat _ _ _ Hs2) in Hm2, Hfed, Hs3.
  repeat match goal with H : <[_:=_]> _ !! _ = None |- _ => apply ins_none in H as [? H] end.
  mlook_in Hm2. injection Hm2 as <-.
  simpl in Hs3, Hacc.
  apply set_and_verify_collection_ok in Hsv as (mm & ua & nm & sz & sgn & cmm & cua & cnm & ccol & csz & csgn & Hmd1 & Hcmd & Hced & -> & Hsg & ->).
  rewrite (ds_dat _ _ _ Hs3) in Hmd1, Hcmd, Hced.
  mlook_in Hmd1. injection Hmd1 as <- <- <- <- <-.
  not_key Hcmd (ca_coll_metadata a) (ca_nft_mint a).
  not_key Hcmd (ca_coll_metadata a) (ca_edition a).
  not_key Hcmd (ca_coll_metadata a) (ca_metadata a).
  not_key Hcmd (ca_coll_metadata a) (ca_recipient_nft_ata a).
  not_key Hcmd (ca_coll_metadata a) (ca_stream a).
  not_key Hcmd (ca_coll_metadata a) (ca_vault a).
  mlook_in Hcmd.
  apply transfer_checked_ok in Ht as (tf & td & m & Htf & Htd & Hmm & ? & ? & ? & ? & ? & ? & ? & ? & ? & ? & ? & Hw).
  rewrite !wdat_set_dat, (ds_dat _ _ _ Hs3) in Htf, Htd.
  pose proof (some_none_ne _ _ _ _ Hct Hf1). pose proof (some_none_ne _ _ _ _ Hct Hf2).
  pose proof (some_none_ne _ _ _ _ Hct Hf3). pose proof (some_none_ne _ _ _ _ Hct Hf4).
  pose proof (some_none_ne _ _ _ _ Hct Hfmd). pose proof (some_none_ne _ _ _ _ Hct Hfed).
  pose proof (some_none_ne _ _ _ _ Hnc Hf1). pose proof (some_none_ne _ _ _ _ Hnc Hf2).
  pose proof (some_none_ne _ _ _ _ Hnc Hf3). pose proof (some_none_ne _ _ _ _ Hnc Hf4).
  pose proof (some_none_ne _ _ _ _ Hnc Hfmd). pose proof (some_none_ne _ _ _ _ Hnc Hfed).
  not_key Hct (ca_creator_ata a) (ca_nft_collection_data a).
  not_key Hct (ca_creator_ata a) (ca_coll_metadata a).
  not_key Hcmd (ca_coll_metadata a) (ca_nft_collection_data a).
  mlook_in Htf. mlook_in Htd. injection Htd as <-.
  assert (tf = ct) as -> by congruence.
  destruct Hw as [[Heq _]|(Hne & Hroom & ->)]; [congruence|].
  exists ct, cm, s, x1, (DMetadata (ca_coll_mint a) cua cnm ccol (Some csz) csgn),
    (DMetadata (ca_coll_mint a) cua cnm ccol (Some (csz + 1)) csgn).
  split; try assumption; try (exists mbump; assumption).
  - nodup_solve.
  - eauto 10.
  - by destruct x.
  - reflexivity.
  - reflexivity.
  - unfold create_map. split.
    + rewrite !wclock_set_dat, (ds_clock _ _ _ Hs3), (ds_clock _ _ _ Hs2), !wclock_set_dat, (ds_clock _ _ _ Hs1).
      rewrite !wdat_set_dat, (ds_dat _ _ _ Hs3). subst s. simpl.
      apply map_eq; intros i.
      key_case i (ca_vault a). key_case i (ca_creator_ata a). key_case i (ca_nft_collection_data a).
      key_case i (ca_coll_metadata a). key_case i (ca_metadata a). key_case i (ca_edition a).
      key_case i (ca_nft_mint a). key_case i (ca_recipient_nft_ata a). key_case i (ca_stream a). mlook. done.
    + rewrite !wclock_set_dat, (ds_clock _ _ _ Hs3), (ds_clock _ _ _ Hs2), !wclock_set_dat. apply (ds_clock _ _ _ Hs1).
    + rewrite !lam_total_set_dat, (ds_total _ _ _ Hs3), (ds_total _ _ _ Hs2), !lam_total_set_dat. apply (ds_total _ _ _ Hs1).
    + intros k Hk. rewrite !lam_set_dat. etransitivity; [by apply (ds_mono _ _ _ Hs1)|].
      match type of Hs2 with data_step ?wx _ _ => change (lam w1 k) with (lam wx k) end.
      etransitivity; [apply (ds_mono _ _ _ Hs2)|apply (ds_mono _ _ _ Hs3)].
      * rewrite !wdat_set_dat, (ds_dat _ _ _ Hs1). somek.
      * rewrite (ds_dat _ _ _ Hs2). somek.
Qed.

Lemma create_ts_inv E sg a p w w' evs :
  create_with_timestamps E sg a p w = Ok (w', evs) ->
  exists ct nc cm dm sbump s name cmd0 cmd, create_facts E sg a p w w' evs ct nc cm dm sbump s name cmd0 cmd.
Proof.
  unfold create_with_timestamps. intros H. inv_all H. destruct x as [[[[w1 sb] mb] nc] dm].
  destruct (create_handler_inv _ _ _ _ _ _ _ _ _ _ _ _ He H) as (ct & cm & s & name & c0 & c1 & Hf). eauto 20.
Qed.

(** The timestamps arguments that a durations call amounts to. *)
Definition dur_args (q : create_dur_args) (now : Z) : create_args :=
  CreateArgs (q_salt q) (q_deposit q) now
    (if 0 <? q_cliff_duration q then now + q_cliff_duration q else 0) (now + q_total_duration q)
    (q_start_unlock q) (q_cliff_unlock q) (q_cancelable q).

Lemma create_accounts_clock E sg a salt w w1 sbump mbump nc dm :
  create_accounts E sg a salt w = Ok (w1, sbump, mbump, nc, dm) -> wclock w1 = wclock w.
Proof.
  intros (ct & cm & H)%create_accounts_inv. 
  repeat match type of H with _ /\ _ => destruct H as [_ H] end. apply (ds_clock _ _ _ H).
Qed.

Lemma create_dur_inv E sg a q w w' evs :
  create_with_durations E sg a q w = Ok (w', evs) ->
  create_with_timestamps E sg a (dur_args q (get_current_time w)) w = Ok (w', evs) /\
  (0 < q_cliff_duration q -> get_current_time w + q_cliff_duration q <= U64_MAX) /\
  get_current_time w + q_total_duration q <= U64_MAX.
Proof.
  unfold create_with_durations, create_with_timestamps. intros H. inv_all H.
  destruct x as [[[[w1 sb] mb] nc] dm]. inv_all H.
  pose proof (create_accounts_clock _ _ _ _ _ _ _ _ _ _ He) as Hc.
  assert (Hn : get_current_time w1 = get_current_time w) by (unfold get_current_time; by rewrite Hc).
  rewrite Hn in *. loads. subst.
  simpl. rewrite He. simpl. unfold dur_args.
  destruct (0 <? q_cliff_duration q) eqn:?; bools; loads; subst; split_and!; auto; try lia.
  by injection He0 as <-.
Qed.

(** ** initialize *)

Record init_facts (E : env) (sg : list key) (a : initialize_accs) (f p c : key) (w w' : world)
   (tb nb : Z) : Prop := {
  if_signer : ia_initializer a ∈ sg;
  if_accepts : md_accepts E (ia_nft_tp a) = true;
  if_treasury_addr : find_program_address E PLockup [s_TREASURY] = Ok (ia_treasury a, tb);
  if_nc_addr : find_program_address E PLockup [s_NFT_COLLECTION_DATA] = Ok (ia_nft_collection_data a, nb);
  if_mint_addr : exists b, find_program_address E PLockup [s_NFT_COLLECTION_MINT] = Ok (ia_mint a, b);
  if_ata_addr : ata_address E (ia_treasury a) (ia_mint a) (ia_nft_tp a) = Ok (ia_ata a);
  if_metadata_addr : exists b, find_program_address E PMetadata (metadata_seeds E (ia_mint a)) = Ok (ia_metadata a, b);
  if_edition_addr : exists b, find_program_address E PMetadata (edition_seeds E (ia_mint a)) = Ok (ia_edition a, b);
  if_distinct : NoDup [ia_treasury a; ia_nft_collection_data a; ia_mint a; ia_ata a; ia_metadata a; ia_edition a];
  if_fresh : Forall (fun k => wdat w !! k = None)
     [ia_treasury a; ia_nft_collection_data a; ia_mint a; ia_ata a; ia_metadata a; ia_edition a];
  if_rent : rent_min E TREASURY_SPACE <= lam w' (ia_treasury a);
  if_step : data_step w w'
    (<[ia_metadata a := DMetadata (ia_mint a) (ia_mint a) COLLECTION_NAME None (Some 0) true]>
    (<[ia_edition a := DEdition (ia_mint a)]>
    (<[ia_ata a := DToken (TokAcc (ia_nft_tp a) (ia_mint a) (ia_treasury a) 1 false)]>
    (<[ia_mint a := DMint (Mint (ia_nft_tp a) 1 0 (Some (ia_edition a)) (Some (ia_edition a)))]>
    (<[ia_nft_collection_data a := DNftCollection (NftCollection 0 nb)]>
    (<[ia_treasury a := DLockupTreasury (Treasury tb f p c)]> (wdat w))))))) }.

Lemma initialize_inv E sg a f p c w w' evs :
  initialize E sg a f p c w = Ok (w', evs) ->
  evs = [] /\ exists tb nb, init_facts E sg a f p c w w' tb nb.
Proof.
  unfold initialize. intros H. inv_all H. loads. injection H as <- <-.
  match goal with H : init_account _ _ (ia_treasury a) _ _ _ = Ok _ |- _ => apply init_account_ok in H as (Hn1 & Hp1 & Hs1 & Hrent) end.
  match goal with H : init_account _ _ (ia_nft_collection_data a) _ _ _ = Ok _ |- _ => apply init_account_ok in H as (Hn2 & Hp2 & Hs2 & _) end.
  match goal with H : create_mint _ _ _ _ _ _ _ _ = Ok _ |- _ => apply create_mint_ok in H as (Hn3 & Hp3 & Hs3) end.
  match goal with H : create_ata _ _ _ _ _ _ _ = Ok _ |- _ => apply create_ata_ok in H as (Hn4 & Ha4 & Hp4 & _ & Hs4) end.
  match goal with H : mint_to _ _ _ _ _ _ _ = Ok _ |- _ => apply mint_to_ok in H as (m1 & t1 & Hm1 & Ht1 & ? & ? & ? & ? & ? & ? & ? & ? & ->) end.
  match goal with H : create_metadata _ _ _ _ _ _ _ _ _ _ _ = Ok _ |- _ => apply create_metadata_ok in H as (Hn5 & Hp5 & _ & Hs5) end.
  match goal with H : create_master_edition _ _ _ _ _ _ _ _ = Ok _ |- _ => apply create_master_edition_ok in H as (m2 & Hm2 & Hn6 & Hp6 & _ & ? & [_ Hacc] & Hs6) end.
  match goal with H : sign_metadata _ _ _ = Ok _ |- _ => apply sign_metadata_ok in H as (m3 & ua & nm & cc & sz & bb & Hm3 & Hsgn & ->) end.
  rewrite (ds_dat _ _ _ Hs1) in Hn2, Hs2.
  rewrite (ds_dat _ _ _ Hs2) in Hn3, Hs3.
  rewrite (ds_dat _ _ _ Hs3) in Hn4, Hs4.
  pose proof (ds_dat _ _ _ Hs4) as Ed4.
  repeat rewrite wdat_set_dat in Hm1. repeat rewrite wdat_set_dat in Ht1.
  repeat rewrite wdat_set_dat in Hn5. repeat rewrite wdat_set_dat in Hs5.
  rewrite Ed4 in Hm1, Ht1, Hn5, Hs5.
  rewrite (ds_dat _ _ _ Hs5) in Hm2, Hn6, Hs6.
  rewrite (ds_dat _ _ _ Hs6) in Hm3.
  repeat match goal with H : <[_:=_]> _ !! _ = None |- _ => apply ins_none in H as [? H] end.
  mlook_in Hm1. mlook_in Ht1. injection Hm1 as <-. injection Ht1 as <-.
  mlook_in Hm2. injection Hm2 as <-. simpl in Hs6, Hm3, Hacc.
  mlook_in Hm3. injection Hm3 as <- <- <- <- <- <-.
  split; [done|]. exists x0, x2. split; try assumption; try (match goal with |- exists b, find_program_address _ _ _ = Ok (?k, b) => match goal with H : find_program_address _ _ _ = Ok (k, ?b) |- _ => exists b; exact H end end).
  - nodup_solve.
  - repeat (constructor; [assumption|]). constructor.
  - rewrite lam_set_dat. etransitivity; [exact Hrent|].
    etransitivity; [apply (ds_mono _ _ _ Hs2); rewrite (ds_dat _ _ _ Hs1); somek|].
    etransitivity; [apply (ds_mono _ _ _ Hs3); rewrite (ds_dat _ _ _ Hs2); somek|].
    etransitivity; [apply (ds_mono _ _ _ Hs4); rewrite (ds_dat _ _ _ Hs3); somek|].
    match type of Hs5 with data_step ?wx _ _ => match type of Hs4 with data_step _ ?wy _ => change (lam wy (ia_treasury a)) with (lam wx (ia_treasury a)) end end.
    etransitivity; [apply (ds_mono _ _ _ Hs5); rewrite !wdat_set_dat, (ds_dat _ _ _ Hs4); somek|].
    apply (ds_mono _ _ _ Hs6); rewrite (ds_dat _ _ _ Hs5); somek.
  - split.
    + rewrite wdat_set_dat, (ds_dat _ _ _ Hs6). simpl. apply map_eq; intros i.
      key_case i (ia_metadata a). key_case i (ia_edition a). key_case i (ia_ata a).
      key_case i (ia_mint a). key_case i (ia_nft_collection_data a). key_case i (ia_treasury a). mlook. done.
    + rewrite !wclock_set_dat, (ds_clock _ _ _ Hs6), (ds_clock _ _ _ Hs5), !wclock_set_dat, (ds_clock _ _ _ Hs4),
        (ds_clock _ _ _ Hs3), (ds_clock _ _ _ Hs2). apply (ds_clock _ _ _ Hs1).
    + rewrite !lam_total_set_dat, (ds_total _ _ _ Hs6), (ds_total _ _ _ Hs5), !lam_total_set_dat, (ds_total _ _ _ Hs4),
        (ds_total _ _ _ Hs3), (ds_total _ _ _ Hs2). apply (ds_total _ _ _ Hs1).
    + intros k Hk. rewrite !lam_set_dat.
      etransitivity; [by apply (ds_mono _ _ _ Hs1)|].
      etransitivity; [apply (ds_mono _ _ _ Hs2); rewrite (ds_dat _ _ _ Hs1); somek|].
      etransitivity; [apply (ds_mono _ _ _ Hs3); rewrite (ds_dat _ _ _ Hs2); somek|].
      etransitivity; [apply (ds_mono _ _ _ Hs4); rewrite (ds_dat _ _ _ Hs3); somek|].
      match type of Hs5 with data_step ?wx _ _ => match type of Hs4 with data_step _ ?wy _ => change (lam wy k) with (lam wx k) end end.
      etransitivity; [apply (ds_mono _ _ _ Hs5); rewrite !wdat_set_dat, (ds_dat _ _ _ Hs4); somek|].
      apply (ds_mono _ _ _ Hs6); rewrite (ds_dat _ _ _ Hs5); somek.
Qed.
