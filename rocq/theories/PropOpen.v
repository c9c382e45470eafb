(** C58: once Lockup is initialized, stream creation stays open for ever. *)
From Verif Require Export PropCreateLive.

(** ** Statement *)

(** Metaplex's rules for the collection NFT: its metadata (update authority: the collection mint's derived address) and
    its master edition can only be rewritten with a signature that Lockup alone can give, and the NFT itself sits in
    the treasury, which never moves or burns it. Everybody may still change the size counter (a burned stream NFT
    lowers it). *)
Record collection_kept (E : env) (w w' : world) : Prop := {
  ck_metadata : forall m b k name col n sgn, find_program_address E PLockup [s_NFT_COLLECTION_MINT] = Ok (m, b) ->
    wdat w !! k = Some (DMetadata m m name col (Some n) sgn) ->
    exists name' col' n' sgn', wdat w' !! k = Some (DMetadata m m name' col' (Some n') sgn');
  ck_edition : forall m b k, find_program_address E PLockup [s_NFT_COLLECTION_MINT] = Ok (m, b) ->
    wdat w !! k = Some (DEdition m) -> wdat w' !! k = Some (DEdition m) }.

(** Histories in which others respect these rules too. *)
Inductive kept_run (E : env) (C : Z -> Z -> Prop) (w0 : world) : trace -> world -> Prop :=
| kept_nil : kept_run E C w0 [] w0
| kept_snoc tr w a evs w' : kept_run E C w0 tr w -> step E C w a evs w' -> (a = AOthers -> collection_kept E w w') ->
    kept_run E C w0 (tr ++ [(a, evs)]) w'.

(** What the creator has to bring, nothing about the collection beyond its (fixed) addresses. *)
Record creator_ready (E : env) (w : world) (sg : list key) (a : create_accs) (p : create_args) : Prop := {
  or_signed : ca_creator a ∈ sg;
  or_ix : lockup_ix_ok (LCreateTs a p) = true;
  or_nft_program : md_accepts E (ca_nft_tp a) = true;
  or_terms : terms_of p;
  or_addresses : create_addresses E a (p_salt p);
  or_collection : (exists b, find_program_address E PLockup [s_NFT_COLLECTION_DATA] = Ok (ca_nft_collection_data a, b)) /\
    (exists b, find_program_address E PLockup [s_NFT_COLLECTION_MINT] = Ok (ca_coll_mint a, b)) /\
    (exists b, find_program_address E PMetadata (metadata_seeds E (ca_coll_mint a)) = Ok (ca_coll_metadata a, b)) /\
    (exists b, find_program_address E PMetadata (edition_seeds E (ca_coll_mint a)) = Ok (ca_coll_edition a, b));
  or_mint : exists m, wdat w !! ca_deposit_mint a = Some (DMint m) /\ m_prog m = ca_deposit_tp a;
  or_tokens : ata_address E (ca_creator a) (ca_deposit_mint a) (ca_deposit_tp a) = Ok (ca_creator_ata a) /\
    exists t, wdat w !! ca_creator_ata a = Some (DToken t) /\ t_owner t = ca_creator a /\ t_mint t = ca_deposit_mint a /\
      t_prog t = ca_deposit_tp a /\ t_frozen t = false /\ p_deposit p <= t_amount t;
  or_token : token_allows E w (ca_deposit_mint a) (ca_creator_ata a) (ca_vault a) (p_deposit p);
  or_funds : wdat w !! ca_creator a = None /\ create_cost E a <= lam w (ca_creator a);
  or_distinct : NoDup (ca_creator a :: new_accounts a);
  or_new : forall k, k ∈ new_accounts a -> wdat w !! k = None /\ 0 <= lam w k }.

(** ** What an instruction leaves alone *)
Lemma lockup_leaves E sg ix w w' evs k d : lockup_effect E sg w ix w' evs -> is_token d = false -> is_streamd d = false ->
  wdat w !! k = Some d ->
  wdat w' !! k = Some d \/
  (exists nc, d = DNftCollection nc /\ wdat w' !! k = Some (DNftCollection (NftCollection (nc_total_supply nc + 1) (nc_bump nc)))) \/
  (exists cm cua nm col n sgn, d = DMetadata cm cua nm col (Some n) sgn /\
    wdat w' !! k = Some (DMetadata cm cua nm col (Some (n + 1)) sgn)).
Proof.
  intros Heff Ht Hs Hk.
  destruct Heff as [a f p c tb nb ? F|? a p ct nc cm dm sb s1 nm c0 c1 ? ? Hix Hargs F|a s1 st ? ? Hsi Hse Hst ? ? ? ? -> ->|a m s1 vt dt st ? ? F
      |? a am tr m nt s1 s' vt dt fee wd ? ? Hix Ham F|a tr n' ? Hc Htr ? ? -> ? Hmv].
  - left. pose proof (if_fresh _ _ _ _ _ _ _ _ _ _ F) as Hf. rewrite !Forall_cons in Hf. destruct Hf as (? & ? & ? & ? & ? & ? & _).
    rewrite (ds_dat _ _ _ (if_step _ _ _ _ _ _ _ _ _ _ F)). rewrite !lookup_insert_ne by congruence. done.
  - pose proof (create_effects _ _ _ _ _ _ _ _ _ _ _ _ _ _ _ _ F) as Hc.
    destruct (decide (k = ca_nft_collection_data a)) as [->|N1].
    { right; left. pose proof (rf_nc _ _ _ _ _ _ _ _ _ _ _ _ _ _ _ _ F) as Hn. rewrite Hn in Hk. injection Hk as <-.
      exists nc. split; [done|]. apply (ce_nc _ _ _ _ _ _ _ _ _ Hc). }
    destruct (decide (k = ca_coll_metadata a)) as [->|N2].
    { right; right. destruct (rf_coll_md_kind _ _ _ _ _ _ _ _ _ _ _ _ _ _ _ _ F) as (cm' & cua & cnm & ccol & csz & csgn & -> & ->).
      pose proof (rf_coll_md _ _ _ _ _ _ _ _ _ _ _ _ _ _ _ _ F) as Hm. rewrite Hm in Hk. injection Hk as <-.
      exists cm', cua, cnm, ccol, csz, csgn. split; [done|]. apply (ce_cmd _ _ _ _ _ _ _ _ _ Hc). }
    left. rewrite (ce_other _ _ _ _ _ _ _ _ _ Hc); [done|].
    pose proof (rf_fresh_nft _ _ _ _ _ _ _ _ _ _ _ _ _ _ _ _ F). pose proof (rf_fresh_nft_ata _ _ _ _ _ _ _ _ _ _ _ _ _ _ _ _ F).
    pose proof (rf_fresh_stream _ _ _ _ _ _ _ _ _ _ _ _ _ _ _ _ F). pose proof (rf_fresh_vault _ _ _ _ _ _ _ _ _ _ _ _ _ _ _ _ F).
    pose proof (rf_fresh_metadata _ _ _ _ _ _ _ _ _ _ _ _ _ _ _ _ F). pose proof (rf_fresh_edition _ _ _ _ _ _ _ _ _ _ _ _ _ _ _ _ F).
    pose proof (rf_creator_ata _ _ _ _ _ _ _ _ _ _ _ _ _ _ _ _ F) as Hca.
    rewrite !not_elem_of_cons. split_and!; try congruence; [|apply not_elem_of_nil].
    intros ->. rewrite Hca in Hk. injection Hk as <-. done.
  - left. rewrite wdat_set_dat, lookup_insert_ne; [done|]. intros <-. rewrite Hst in Hk. injection Hk as <-. done.
  - left. eapply (payout_kept E w); [apply (cf_pay _ _ _ _ _ _ _ _ _ _ _ F)|apply (cf_vault _ _ _ _ _ _ _ _ _ _ _ F)|apply (cf_stream _ _ _ _ _ _ _ _ _ _ _ F)|done..].
  - left. eapply (payout_kept E w); [apply (wf_pay _ _ _ _ _ _ _ _ _ _ _ _ _ _ _ _ F)|apply (wf_vault _ _ _ _ _ _ _ _ _ _ _ _ _ _ _ _ F)|apply (wf_stream _ _ _ _ _ _ _ _ _ _ _ _ _ _ _ _ F)|done..].
  - left. apply move_lamports_ok in Hmv as (Hd & _). by rewrite Hd.
Qed.

Lemma merkle_leaves E sg ix w w' evs k d : merkle_effect E sg w ix w' evs -> is_token d = false -> owner_prog d <> Some PMerkle ->
  wdat w !! k = Some d -> wdat w' !! k = Some d.
Proof.
  intros Heff Ht Ho Hk.
  destruct Heff as [i t1 f p c1 b ? Hi Hti Hn Hne Hd Hr|a g m b c1 ? ? Hi Hm Hmp Hf Hn1 Hn2 Hne Hv Hc Hsz Hd ->|a i am pf tr m c1 vt dt fee ? ? F
    |a am m c1 vt dt ? ? F|a tr n ? Hc Htr Hcc Hca -> Hnpos Hmv].
  - rewrite (ds_dat _ _ _ Hd), lookup_insert_ne; [done|congruence].
  - rewrite (ds_dat _ _ _ Hd). rewrite !lookup_insert_ne by congruence. done.
  - eapply payout_non_own; [apply (lf_pay _ _ _ _ _ _ _ _ _ _ _ _ _ _ _ F)|apply (lf_vault _ _ _ _ _ _ _ _ _ _ _ _ _ _ _ F)| |done| |done].
    + intros j Hj. rewrite lookup_insert_ne; [done|]. intros <-. apply Hj, (lf_receipt _ _ _ _ _ _ _ _ _ _ _ _ _ _ _ F).
    + intros ->. rewrite (lf_campaign _ _ _ _ _ _ _ _ _ _ _ _ _ _ _ F) in Hk. injection Hk as <-. done.
  - eapply payout_non_own; [apply (bf_pay _ _ _ _ _ _ _ _ _ _ _ F)|apply (bf_vault _ _ _ _ _ _ _ _ _ _ _ F)|done|done| |done].
    intros ->. rewrite (bf_campaign _ _ _ _ _ _ _ _ _ _ _ F) in Hk. injection Hk as <-. done.
  - apply move_lamports_ok in Hmv as (Hd & _). by rewrite Hd.
Qed.

(** ** The collection *)
(** The collection is complete, with a counter below [n]. *)
Definition collection_at (E : env) (w : world) (n : Z) : Prop :=
  exists d m md ed nc mt name col sz sgn bd bm bmd bed,
    find_program_address E PLockup [s_NFT_COLLECTION_DATA] = Ok (d, bd) /\
    find_program_address E PLockup [s_NFT_COLLECTION_MINT] = Ok (m, bm) /\
    find_program_address E PMetadata (metadata_seeds E m) = Ok (md, bmd) /\
    find_program_address E PMetadata (edition_seeds E m) = Ok (ed, bed) /\
    wdat w !! d = Some (DNftCollection nc) /\ nc_total_supply nc <= n /\
    wdat w !! m = Some (DMint mt) /\ m_authority mt = Some ed /\
    wdat w !! md = Some (DMetadata m m name col (Some sz) sgn) /\
    wdat w !! ed = Some (DEdition m).

Lemma initialize_collection E sg a f p c w w' evs : lockup_exec E sg (LInitialize a f p c) w = Ok (w', evs) -> collection_at E w' 0.
Proof.
  intros H. apply lockup_exec_effect in H as [_ Heff]. inversion Heff as [? ? ? ? tb nb ? F|? ? ? ? ? ? ? ? ? ? ? ? ? ? [?|(?&?&_)]|? ? ? ? ? ? ? ? ?|? ? ? ? ? ? ? ? F|? ? ? ? ? ? ? ? ? ? ? ? ? ? [?|[? _]]|? ? ? ? ? ?]; subst; try discriminate.
  destruct F as [_ _ _ Hnc [bm Hm] _ [bmd Hmd] [bed Hed] Hnd _ _ Hst]. pose proof (ds_dat _ _ _ Hst) as Hd. clear Hst.
  nodup_neq Hnd.
  exists (ia_nft_collection_data a), (ia_mint a), (ia_metadata a), (ia_edition a), (NftCollection 0 nb),
    (Mint (ia_nft_tp a) 1 0 (Some (ia_edition a)) (Some (ia_edition a))), COLLECTION_NAME, None, 0, true, nb, bm, bmd, bed.
  rewrite Hd. split; [exact Hnc|]. split; [exact Hm|]. split; [exact Hmd|]. split; [exact Hed|].
  split; [mlook; done|]. split; [simpl; lia|]. split; [mlook; done|]. split; [done|]. split; mlook; done.
Qed.

Lemma collection_more E w n n' : n <= n' -> collection_at E w n -> collection_at E w n'.
Proof.
  intros Hn (d & m & md & ed & nc & mt & name & col & sz & sgn & bd & bm & bmd & bed & H1 & H2 & H3 & H4 & H5 & H6 & H7).
  exists d, m, md, ed, nc, mt, name, col, sz, sgn, bd, bm, bmd, bed.
  split; [exact H1|]. split; [exact H2|]. split; [exact H3|]. split; [exact H4|]. split; [exact H5|]. split; [lia|exact H7].
Qed.

Lemma collection_step E C w a evs w' n : env_ok E -> token_sane E w -> step E C w a evs w' -> (a = AOthers -> collection_kept E w w') ->
  collection_at E w n -> collection_at E w' (n + 1).
Proof.
  intros HE Hts Hst Hck (d & m & md & ed & nc & mt & name & col & sz & sgn & bd & bm & bmd & bed & A1 & A2 & A3 & A4 & D1 & Dn & D2 & Da & D3 & D4).
  assert (pda_of E PMetadata ed = true) as Hpe by exact (proj1 (fpa_pda _ _ _ _ _ HE A4)).
  destruct (sk_sealed _ _ _ _ (step_keeps _ _ _ _ _ _ HE Hts Hst) _ _ _ D2 Da Hpe (eo_nft _ HE _ (proj1 (fpa_pda _ _ _ _ _ HE A2)))) as (mt' & M1 & _ & _ & M2 & _).
  assert (exists nc' name' col' sz' sgn', wdat w' !! d = Some (DNftCollection nc') /\ nc_total_supply nc' <= n + 1 /\
    wdat w' !! md = Some (DMetadata m m name' col' (Some sz') sgn') /\ wdat w' !! ed = Some (DEdition m)) as (nc' & name' & col' & sz' & sgn' & X1 & X2 & X3 & X4).
  { pose proof (step_keeps _ _ _ _ _ _ HE Hts Hst) as [HL _ _ _].
    destruct Hst as [sg ix evs w' Hsg Hx|sg ix evs w' Hsg Hx|w' Ho Hc].
    - apply lockup_exec_effect in Hx as [_ Heff].
      assert (wdat w' !! ed = Some (DEdition m)) as X4.
      { destruct (lockup_leaves _ _ _ _ _ _ _ (DEdition m) Heff eq_refl eq_refl D4) as [X|[(? & ? & _)|(? & ? & ? & ? & ? & ? & ? & _)]]; [exact X|discriminate|discriminate]. }
      assert (exists nc', wdat w' !! d = Some (DNftCollection nc') /\ nc_total_supply nc' <= n + 1) as (nc' & X1 & X2).
      { destruct (lockup_leaves _ _ _ _ _ _ _ (DNftCollection nc) Heff eq_refl eq_refl D1) as [X|[(nc1 & [= <-] & X)|(? & ? & ? & ? & ? & ? & ? & _)]]; [|..].
        - exists nc. split; [exact X|lia].
        - eexists. split; [exact X|simpl; lia].
        - discriminate. }
      destruct (lockup_leaves _ _ _ _ _ _ _ (DMetadata m m name col (Some sz) sgn) Heff eq_refl eq_refl D3) as [X|[(nc1 & ? & X)|(? & ? & ? & ? & ? & ? & [= <- <- <- <- <- <-] & X)]]; [|discriminate|].
      + exists nc', name, col, sz, sgn. split; [exact X1|]. split; [exact X2|]. split; [exact X|exact X4].
      + exists nc', name, col, (sz + 1), sgn. split; [exact X1|]. split; [exact X2|]. split; [exact X|exact X4].
    - apply merkle_exec_effect in Hx as [_ Heff]. exists nc, name, col, sz, sgn.
      split; [|split; [lia|split]]; (eapply merkle_leaves; [exact Heff|done|done|]); [exact D1|exact D3|exact D4].
    - destruct (Hck eq_refl) as [K1 K2]. destruct (K1 _ _ _ _ _ _ _ A2 D3) as (name' & col' & sz' & sgn' & X3).
      exists nc, name', col', sz', sgn'. split; [exact (proj1 (u_data _ _ _ _ (HL eq_refl) _ (DNftCollection nc) D1 eq_refl))|].
      split; [lia|]. split; [exact X3|]. exact (K2 _ _ _ A2 D4). }
  exists d, m, md, ed, nc', mt', name', col', sz', sgn', bd, bm, bmd, bed.
  split; [exact A1|]. split; [exact A2|]. split; [exact A3|]. split; [exact A4|]. split; [exact X1|]. split; [exact X2|].
  split; [exact M1|]. split; [exact M2|]. split; [exact X3|exact X4].
Qed.

Lemma kept_run_run E C w0 tr w : kept_run E C w0 tr w -> run E C w0 tr w.
Proof. induction 1; econstructor; eassumption. Qed.

Definition initialized_in (tr : trace) : Prop := exists sg a f p c evs, (ALockup sg (LInitialize a f p c), evs) ∈ tr.

Lemma kept_collection E C w0 tr w : env_ok E -> genesis E w0 -> kept_run E C w0 tr w -> initialized_in tr ->
  collection_at E w (Z.of_nat (length tr)).
Proof.
  intros HE Hg Hr. induction Hr as [|tr w a evs w' Hr IH Hst Hck]; intros (sg & ia & f & p & c & evs' & Hin).
  - apply elem_of_nil in Hin. done.
  - rewrite app_length, Nat2Z.inj_add. simpl length. change (Z.of_nat 1) with 1.
    apply elem_of_app in Hin as [Hin|Hin].
    + eapply collection_step; [exact HE| |exact Hst|exact Hck|].
      * eapply run_sane; [exact HE|apply (g_token _ _ Hg)|by apply kept_run_run].
      * apply IH. by exists sg, ia, f, p, c, evs'.
    + apply elem_of_list_singleton in Hin. injection Hin as <- <-.
      inversion Hst as [? ? ? ? Hsg Hx| |]; subst. eapply collection_more; [|eapply initialize_collection; exact Hx]. lia.
Qed.

(** ** C58 *)
(** In every history in which [initialize] has run at some point, whatever happened before and after it: the collection
    is complete, so that [create_with_timestamps] succeeds for everybody who brings what depends on the creator alone.
    (Fewer than 2^64 - 1 transactions so far: the counter of stream NFTs is a u64.) *)
Theorem C58_creation_stays_open : forall E C w0 tr w sg a p, env_ok E -> genesis E w0 -> kept_run E C w0 tr w ->
  initialized_in tr -> Z.of_nat (length tr) < U64_MAX -> creator_ready E w sg a p ->
  exists w' evs, lockup_exec E sg (LCreateTs a p) w = Ok (w', evs).
Proof.
  intros E C w0 tr w sg a p HE Hg Hr Hi Hlen [O1 O2 Oac O3 O4 (O5 & O6 & O7 & O8) O9 O10 Otok O11 O12 O13].
  destruct (kept_collection _ _ _ _ _ HE Hg Hr Hi) as (d & m & md & ed & nc & mt & name & col & sz & sgn & bd & bm & bmd & bed & A1 & A2 & A3 & A4 & D1 & Dn & D2 & Da & D3 & D4).
  destruct O5 as [b5 O5], O6 as [b6 O6], O7 as [b7 O7], O8 as [b8 O8].
  destruct (fpa_fun _ _ _ _ _ _ _ O5 A1) as [<- <-]. destruct (fpa_fun _ _ _ _ _ _ _ O6 A2) as [<- <-].
  destruct (fpa_fun _ _ _ _ _ _ _ O7 A3) as [<- <-]. destruct (fpa_fun _ _ _ _ _ _ _ O8 A4) as [<- <-].
  assert (reachable E w) as Hre.
  { exists tr. exists w0. split; [exact Hg|]. clear - Hr. induction Hr as [|tr w x evs w' Hr IH Hs]; [constructor|].
    econstructor; [exact IH|]. destruct Hs as [sg ix evs w' Hsg Hx|sg ix evs w' Hsg Hx|w' Ho Hc]; [by constructor|by constructor|constructor; [exact Ho|exact I]]. }
  apply C47_create_succeeds; [exact HE|exact Hre|]. split; [exact O1|exact O2|exact Oac|exact O3|exact O4| |exact O9|exact O10|exact Otok|exact O11|exact O12|exact O13].
  split.
  - exists nc. split; [exact D1|lia].
  - split; [exists b6; exact O6|exists mt; exact D2].
  - split; [exists b7; exact O7|]. exists name, col, sz, sgn. exact D3.
  - split; [exists b8; exact O8|exact D4].
Qed.

(** Before [initialize] nobody can create a stream. *)
Theorem C58_nothing_before_initialize : forall E C tr w, env_ok E -> history E C tr w -> ~ initialized_in tr ->
  (forall sg a p, exists e, lockup_exec E sg (LCreateTs a p) w = Err e) /\
  (forall sg a q, exists e, lockup_exec E sg (LCreateDur a q) w = Err e) /\
  forall k s, wdat w !! k <> Some (DStream s).
Proof.
  intros E C tr w HE (w0 & Hg & Hr) Hni.
  assert (forall k n, wdat w !! k <> Some (DNftCollection n)) as Hno.
  { induction Hr as [|tr w a evs w' Hr IH Hst]; intros k n Hk.
    - pose proof (g_data _ _ Hg _ _ Hk). discriminate.
    - assert (~ initialized_in tr) as Hni'.
      { intros (sg & ia & f & p & c & evs' & Hin). apply Hni. exists sg, ia, f, p, c, evs'. apply elem_of_app. by left. }
      specialize (IH Hni'). pose proof (run_sane _ _ _ _ _ HE (g_token _ _ Hg) Hr) as Hts.
      pose proof (step_keeps _ _ _ _ _ _ HE Hts Hst) as [HL _ _ _].
      destruct Hst as [sg ix evs w' Hsg Hx|sg ix evs w' Hsg Hx|w' Ho Hc].
      + destruct (lockup_exec_effect _ _ _ _ _ _ Hx) as [_ Heff].
        destruct (lockup_collection _ _ _ _ _ _ _ _ Heff Hk) as [[X _]|[(a & f & p & c & -> & _)|(a & p & ct & nc & cm & dm & sb & s & nm & c0 & c1 & _ & _ & X & _)]].
        * exact (IH _ _ X).
        * apply Hni. exists sg, a, f, p, c, evs. apply elem_of_app. right. by apply elem_of_list_singleton.
        * exact (IH _ _ X).
      + exact (IH _ _ (u_new _ _ _ _ (HL eq_refl) _ _ Hk eq_refl)).
      + exact (IH _ _ (u_new _ _ _ _ (HL eq_refl) _ _ Hk eq_refl)). }
  assert (forall sg ix w' evs a, lockup_exec E sg ix w = Ok (w', evs) -> (exists p, ix = LCreateTs a p) \/ (exists q, ix = LCreateDur a q) -> False) as Hno2.
  { intros sg ix w' evs a Hx Hix. apply lockup_exec_effect in Hx as [_ Heff].
    inversion Heff as [|? ? ? ? ? ? ? ? ? ? ? ? ? ? ? ? F| | |? ? ? ? ? ? ? ? ? ? ? ? ? ? [?|[? _]]|]; subst; try (destruct Hix as [[? ?]|[? ?]]; discriminate).
    exact (Hno _ _ (rf_nc _ _ _ _ _ _ _ _ _ _ _ _ _ _ _ _ F)). }
  split; [|split].
  - intros sg a p. destruct (lockup_exec E sg (LCreateTs a p) w) as [[w' evs]|e] eqn:Hx; [|by exists e].
    exfalso. eapply Hno2; [exact Hx|left; by exists p].
  - intros sg a q. destruct (lockup_exec E sg (LCreateDur a q) w) as [[w' evs]|e] eqn:Hx; [|by exists e].
    exfalso. eapply Hno2; [exact Hx|right; by exists q].
  - pose proof (proj2 (history_lockup_inv _ _ _ _ HE (ex_intro _ w0 (conj Hg Hr)))) as Hli.
    destruct (li_nocoll _ _ Hli) as [H|(k & n & H)]; [exact H|]. exfalso. exact (Hno _ _ H).
Qed.

(** ** Example: the sample history up to the first withdrawal, then a third stream *)
Lemma kept_cons E C w a evs w1 tr w' : step E C w a evs w1 -> (a = AOthers -> collection_kept E w w1) -> kept_run E C w1 tr w' ->
  kept_run E C w ((a, evs) :: tr) w'.
Proof.
  intros Hs Hk. induction 1 as [|tr wb b evs' wc Hr IH Hs' Hk'].
  - apply (kept_snoc E C w [] w); [constructor|exact Hs|exact Hk].
  - change ((a, evs) :: tr ++ [(b, evs')]) with (((a, evs) :: tr) ++ [(b, evs')]). econstructor; [exact IH|exact Hs'|exact Hk'].
Qed.
Lemma script_kept E cs w : env_ok E -> token_sane E w -> keys_sane w -> script_ok E cs w = true ->
  kept_run E forward_clock w (script_trace E cs w) (script E cs w).
Proof.
  intros HE. revert w. induction cs as [|c cs IH]; intros w Hs Hks Hok; simpl in *; [constructor|].
  apply andb_prop in Hok as [H1 H2]. pose proof (do_step E c w HE Hs Hks H1) as Hst.
  assert ((entry E c w).1 = AOthers -> collection_kept E w (do E c w)) as Hck.
  { destruct c as [sg ix|sg ix|t|k n]; simpl; try discriminate; intros _.
    - split; simpl; eauto 10.
    - split; unfold give.
      + intros m b k' name col sz sgn _ Hm. destruct (wdat w !! k) as [[]|] eqn:Hk; eauto 10.
        exists name, col, sz, sgn. simpl. rewrite lookup_insert_ne; [done|]. intros ->. rewrite Hk in Hm. discriminate.
      + intros m b k' _ Hm. destruct (wdat w !! k) as [[]|] eqn:Hk; eauto 10.
        simpl. rewrite lookup_insert_ne; [done|]. intros ->. rewrite Hk in Hm. discriminate. }
  destruct (entry E c w) as [a evs] eqn:He. simpl in Hst, Hck.
  eapply kept_cons; [exact Hst|exact Hck|]. apply IH; [|exact (step_keys _ _ _ _ _ _ HE Hst Hks)|done].
  exact (sk_token _ _ _ _ (step_keeps _ _ _ _ _ _ HE Hs Hst)).
Qed.
Example C58_example :
  genesis E0 w0 /\ kept_run E0 forward_clock w0 tr_1 w1 /\
  initialized_in tr_1 /\ creator_ready E0 w1 [kSender] (create_for 3) dep3 /\
  ~ initialized_in (script_trace E0 [CT 1400] w0).
Proof.
  split; [apply w0_genesis|]. split.
  { destruct stage1 as (Hok & <- & <-).
    apply script_kept; [apply E0_ok|apply (g_token _ _ w0_genesis)|apply (g_keys _ _ w0_genesis)|exact Hok]. }
  split. { exists [kOther], init_accs, kCollector, kOracle, kFeed, []. cbn. left. }
  split; [|intros (? & ? & ? & ? & ? & ? & Hin); apply elem_of_list_singleton in Hin; discriminate].
  split.
  - left.
  - vm_compute. reflexivity.
  - reflexivity.
  - split; vm_compute; intuition congruence.
  - split; [exists 255|exists 255| | |exists 255|exists 255]; vm_compute; reflexivity.
  - split; [exists 255; vm_compute; reflexivity|]. split; [exists 255; vm_compute; reflexivity|].
    split; exists 255; vm_compute; reflexivity.
  - eexists. split; vm_compute; reflexivity.
  - split; [vm_compute; reflexivity|]. eexists. split; [vm_compute; reflexivity|]. split; [vm_compute; reflexivity|].
    split; [vm_compute; reflexivity|]. split; [vm_compute; reflexivity|]. split; [vm_compute; reflexivity|]. vm_compute. congruence.
  - vm_compute. congruence.
  - split; [vm_compute; reflexivity|]. vm_compute. congruence.
  - apply (bool_decide_unpack _). vm_compute. exact I.
  - apply new_from_check. vm_compute. reflexivity.
Qed.

Print Assumptions C58_creation_stays_open.
Print Assumptions C58_nothing_before_initialize.
