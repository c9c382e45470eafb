(** C68: what was accepted once and must not happen twice is never accepted again. C69: claiming opens with the Merkle
    Instant initialize and stays open. *)
From Verif Require Export PropCosts PropHistory PropCampaign PropInit PropClawback.

(** ** C68 *)
(** The instructions meant to happen once. The others (withdraw, withdraw_max, clawback, collect_fees) may be repeated. *)
Definition one_shot (i : any_ix) : bool :=
  match i with
  | IL (LInitialize _ _ _ _) | IL (LCreateTs _ _) | IL (LCreateDur _ _) | IL (LRenounce _) | IL (LCancel _)
  | IM (MInitialize _ _ _ _ _) | IM (MCreateCampaign _ _) | IM (MClaim _ _ _ _) => true
  | _ => false
  end.

Lemma exec_step E C sg i w w' evs : signers_ok E sg -> exec E sg i w = Ok (w', evs) -> exists a, step E C w a evs w'.
Proof. intros Hs Hx. destruct i as [ix|ix]; [exists (ALockup sg ix)|exists (AMerkle sg ix)]; by constructor. Qed.

(** An account of the program created by the first execution makes the second fail. *)
Lemma merkle_account_blocks E w1 w2 k d : env_ok E -> reachable E w1 -> later E w1 w2 -> wdat w1 !! k = Some d -> owner_prog d = Some PMerkle ->
  wdat w2 !! k <> None.
Proof.
  intros HE Hr Hl Hk Ho. destruct (prog_owned _ _ (or_intror eq_refl) Ho) as (n & s & Hod).
  destruct (C67_accounts_last _ _ _ _ _ _ _ _ HE Hr Hl Hk Hod) as (d2 & -> & _). done.
Qed.
Lemma lockup_account_blocks E w1 w2 k d : env_ok E -> reachable E w1 -> later E w1 w2 -> wdat w1 !! k = Some d -> owner_prog d = Some PLockup ->
  wdat w2 !! k <> None.
Proof.
  intros HE Hr Hl Hk Ho. destruct (prog_owned _ _ (or_introl eq_refl) Ho) as (n & s & Hod).
  destruct (C67_accounts_last _ _ _ _ _ _ _ _ HE Hr Hl Hk Hod) as (d2 & -> & _). done.
Qed.

Theorem C68_no_replay : forall E w sg i w1 evs w2 sg', env_ok E -> reachable E w -> signers_ok E sg ->
  exec E sg i w = Ok (w1, evs) -> one_shot i = true -> later E w1 w2 -> exists e, exec E sg' i w2 = Err e.
Proof.
  intros E w sg i w1 evs w2 sg' HE Hr Hsg Hx Hone Hl.
  destruct (exec E sg' i w2) as [[w3 evs3]|e] eqn:Hx2; [|by exists e]. exfalso.
  destruct (exec_step E any_clock _ _ _ _ _ Hsg Hx) as [act Hst].
  assert (reachable E w1) as Hr1 by (eapply reachable_later; [exact Hr|by eapply step_later]).
  destruct i as [[a f p c|a p|a q|a|a|a amount|a|a]|[i t f p c|a g|a index amount proof|a amount|a]]; try discriminate; cbn [exec] in Hx, Hx2.
  - apply lockup_exec_effect in Hx as [_ Heff], Hx2 as [_ Heff2].
    inversion Heff as [? ? ? ? tb nb ? F|? ? ? ? ? ? ? ? ? ? ? ? ? ? [?|(? & ? & _)]| | |? ? ? ? ? ? ? ? ? ? ? ? ? ? [?|[? _]]|]; subst; try discriminate.
    inversion Heff2 as [? ? ? ? tb2 nb2 ? F2|? ? ? ? ? ? ? ? ? ? ? ? ? ? [?|(? & ? & _)]| | |? ? ? ? ? ? ? ? ? ? ? ? ? ? [?|[? _]]|]; subst; try discriminate.
    pose proof (if_fresh _ _ _ _ _ _ _ _ _ _ F2) as Hf. rewrite Forall_cons in Hf. destruct Hf as [Hf _]. revert Hf.
    apply (lockup_account_blocks E w1 w2 _ (DLockupTreasury (Treasury tb f p c))); [exact HE|exact Hr1|exact Hl| |reflexivity].
    rewrite (ds_dat _ _ _ (if_step _ _ _ _ _ _ _ _ _ _ F)). pose proof (if_distinct _ _ _ _ _ _ _ _ _ _ F) as Hn.
    apply NoDup_cons in Hn as [Hn _]. rewrite !not_elem_of_cons in Hn. destruct Hn as (? & ? & ? & ? & ? & _).
    rewrite !lookup_insert_ne by done. apply lookup_insert.
  - pose proof (C23_create_once E w sg (LCreateTs a p) w1 evs (ca_sender a) (p_salt p) w2 sg' (LCreateTs a p) HE Hr Hsg) as H.
    rewrite Hx2 in H. discriminate H; [left; by exists a, p|exact Hx|exact Hl|left; by exists a, p].
  - pose proof (C23_create_once E w sg (LCreateDur a q) w1 evs (ca_sender a) (q_salt q) w2 sg' (LCreateDur a q) HE Hr Hsg) as H.
    rewrite Hx2 in H. discriminate H; [right; by exists a, q|exact Hx|exact Hl|right; by exists a, q].
  - destruct (proj1 (C14_ways _ _ HE Hr) _ _ _ _ Hsg Hx) as (s & Hk & Hc).
    destruct (C14_irreversible _ _ _ _ _ HE Hr1 Hk Hc Hl) as (_ & _ & H). specialize (H sg' a eq_refl). rewrite Hx2 in H. discriminate.
  - destruct (proj1 (proj2 (C14_ways _ _ HE Hr)) _ _ _ _ Hsg Hx) as (s & Hk & Hc).
    destruct (C14_irreversible _ _ _ _ _ HE Hr1 Hk Hc Hl) as (_ & H & _). specialize (H sg' a eq_refl). rewrite Hx2 in H. discriminate.
  - apply merkle_exec_effect in Hx as [_ Heff], Hx2 as [_ Heff2].
    inversion Heff as [? ? ? ? ? b ? Hi Ht Hn Hne Hd Hrt| | | |]; subst. inversion Heff2 as [? ? ? ? ? b2 ? Hi2 Ht2 Hn2 Hne2 Hd2 Hrt2| | | |]; subst.
    revert Hn2. apply (merkle_account_blocks E w1 w2 _ (DMerkleTreasury (Treasury b f p c))); [exact HE|exact Hr1|exact Hl| |reflexivity].
    rewrite (ds_dat _ _ _ Hd). apply lookup_insert.
  - apply merkle_exec_effect in Hx as [_ Heff], Hx2 as [_ Heff2].
    inversion Heff as [|? ? m b c1 ? ? Hi Hm Hmp Hf Hn1 Hnv Hne Hv Hc Hsz Hd ?| | |]; subst.
    inversion Heff2 as [|? ? m2 b2 c2 ? ? Hi2 Hm2 Hmp2 Hf2 Hn2 Hnv2 Hne2 Hv2 Hc2 Hsz2 Hd2 ?| | |]; subst.
    revert Hn2. match type of Hd with data_step _ _ (<[_:=?x]> _) => apply (merkle_account_blocks E w1 w2 _ x) end; [exact HE|exact Hr1|exact Hl| |reflexivity].
    rewrite (ds_dat _ _ _ Hd). apply lookup_insert.
  - destruct Hr as (tr & w0 & Hg & Hrun), Hl as (tr2 & Hrun2).
    assert (history E any_clock ((tr ++ [(AMerkle sg (MClaim a index amount proof), evs)]) ++ tr2) w2) as Hh.
    { exists w0. split; [exact Hg|]. eapply run_app; [|exact Hrun2]. econstructor; [exact Hrun|]. constructor; [exact Hsg|exact Hx]. }
    pose proof (C36_second_fails E _ w2 sg' a index amount proof HE Hh) as H. rewrite Hx2 in H. discriminate H.
    apply claims_index, elem_key_index.
    apply merkle_exec_effect in Hx as [_ Heff]. inversion Heff as [| |? ? ? ? tr' m c1 vt dt fee ? ? F| |]; subst.
    pose proof (lf_evs _ _ _ _ _ _ _ _ _ _ _ _ _ _ _ F) as ->.
    exists amount, (la_claimer a), (la_receipt a), fee, (la_recipient a).
    rewrite !events_app, events_one. apply elem_of_app. left. apply elem_of_app. right. left.
Qed.

(** So in every history each of them occurs at most once, whoever signs. *)
Definition act (sg : list key) (i : any_ix) : action := match i with IL ix => ALockup sg ix | IM ix => AMerkle sg ix end.
Lemma run_split E C w0 t1 t2 w : run E C w0 (t1 ++ t2) w -> exists w1, run E C w0 t1 w1 /\ run E C w1 t2 w.
Proof.
  remember (t1 ++ t2) as t eqn:Ht. intros Hr. revert t2 Ht. induction Hr as [|tr w a evs w' Hr IH Hs]; intros t2 Ht.
  - symmetry in Ht. apply app_eq_nil in Ht as [-> ->]. exists w0. split; constructor.
  - destruct t2 as [|x t2 _] using rev_ind.
    + rewrite app_nil_r in Ht. subst t1. exists w'. split; [econstructor; [exact Hr|exact Hs]|constructor].
    + rewrite app_assoc in Ht. apply app_inj_tail in Ht as [-> <-]. destruct (IH t2 eq_refl) as (w1 & H1 & H2).
      exists w1. split; [exact H1|]. econstructor; [exact H2|exact Hs].
Qed.
Lemma run_cons_inv E C w0 a evs t w : run E C w0 ((a, evs) :: t) w -> exists w1, step E C w0 a evs w1 /\ run E C w1 t w.
Proof.
  change ((a, evs) :: t) with ([(a, evs)] ++ t). intros Hr. apply run_split in Hr as (w1 & H1 & H2). exists w1. split; [|exact H2].
  remember [(a, evs)] as l eqn:Hl. destruct H1 as [|tr w' a' evs' w'' Hr Hs]; [discriminate|].
  change [(a, evs)] with ([] ++ [(a, evs)]) in Hl. apply app_inj_tail in Hl as [-> [= -> ->]].
  remember (@nil (action * list event)) as l eqn:Hl. destruct Hr as [|tr ? ? ? ? _ _]; [exact Hs|]. destruct tr; discriminate.
Qed.
Lemma step_exec E C sg i evs w w' : step E C w (act sg i) evs w' -> signers_ok E sg /\ exec E sg i w = Ok (w', evs).
Proof. destruct i; cbn [act]; intros H; inversion H; subst; done. Qed.
Theorem C68_at_most_once : forall E tr1 tr2 tr3 w sg i evs sg' evs', env_ok E -> one_shot i = true ->
  ~ history E any_clock (tr1 ++ (act sg i, evs) :: tr2 ++ (act sg' i, evs') :: tr3) w.
Proof.
  intros E tr1 tr2 tr3 w sg i evs sg' evs' HE Hone (w0 & Hg & Hr).
  apply run_split in Hr as (wa & Ha & Hr). apply run_cons_inv in Hr as (wb & Hb & Hr). apply run_split in Hr as (wc & Hc & Hr).
  apply run_cons_inv in Hr as (wd & Hd & _). apply step_exec in Hb as [Hsg Hb], Hd as [_ Hd].
  assert (reachable E wa) as Hra by (exists tr1, w0; split; [exact Hg|exact Ha]).
  destruct (C68_no_replay E wa sg i wb evs wc sg' HE Hra Hsg Hb Hone) as [e He]; [by exists tr2|]. rewrite Hd in He. discriminate.
Qed.

(** ** C69 *)
Definition merkle_initialized_in (tr : trace) (t p c : key) : Prop := exists sg i f evs, (AMerkle sg (MInitialize i t f p c), evs) ∈ tr.

(** Before the initialization of Merkle Instant nobody can claim. *)
Theorem C69_no_claim_before : forall E C tr w, env_ok E -> history E C tr w -> (forall t p c, ~ merkle_initialized_in tr t p c) ->
  (forall sg a index amount proof, exists e, merkle_exec E sg (MClaim a index amount proof) w = Err e) /\
  (forall sg a, exists e, merkle_exec E sg (MCollectFees a) w = Err e) /\ forall k, wdat w !! k <> Some DClaimReceipt.
Proof.
  intros E C tr w HE (w0 & Hg & Hr) Hni.
  assert ((forall k t, wdat w !! k <> Some (DMerkleTreasury t)) /\ forall k, wdat w !! k <> Some DClaimReceipt) as [Hno Hnr].
  { induction Hr as [|tr w a evs w' Hr IH Hst].
    - split; intros k; [intros t|]; intros Hk; pose proof (g_data _ _ Hg _ _ Hk); discriminate.
    - assert (forall t p c, ~ merkle_initialized_in tr t p c) as Hni'.
      { intros t p c (sg & i & f & evs' & Hin). apply (Hni t p c). exists sg, i, f, evs'. apply elem_of_app. by left. }
      destruct (IH Hni') as [IH1 IH2]. pose proof (run_sane _ _ _ _ _ HE (g_token _ _ Hg) Hr) as Hts.
      pose proof (step_keeps _ _ _ _ _ _ HE Hts Hst) as [_ HM _ _].
      destruct Hst as [sg ix evs w' Hsg Hx|sg ix evs w' Hsg Hx|w' Ho Hc].
      + split; intros k; [intros t|]; intros Hk; pose proof (u_new _ _ _ _ (HM eq_refl) _ _ Hk eq_refl) as H0; [exact (IH1 _ _ H0)|exact (IH2 _ H0)].
      + destruct (merkle_exec_effect _ _ _ _ _ _ Hx) as [_ Heff].
        assert (forall k d x, wdat w !! k = Some d -> owned d = Some x -> x = (PMerkle, 3, 105) \/ x = (PMerkle, 5, 8) -> False) as Hold.
        { intros k d x H0 Hod Hx'. destruct d; try discriminate; injection Hod as <-; destruct Hx' as [?|?]; try discriminate;
            first [exact (IH1 _ _ H0)|exact (IH2 _ H0)]. }
        assert (forall k d x, wdat w' !! k = Some d -> owned d = Some x -> x = (PMerkle, 3, 105) \/ x = (PMerkle, 5, 8) -> False) as Hno.
        { intros k d x Hk Hod Hx'. destruct Heff as [i t1 f p c1 b ? Hi Hti Hn Hne Hd Hrr|a g m b c1 ? ? Hi Hm Hmp Hf Hn1 Hn2 Hne Hv Hcc Hsz Hd ->|a i am pf trr m c1 vt dt fee ? ? F
              |a am m c1 vt dt ? ? F|a trr n ? Hcc Htr Hc1 Hca -> Hnpos Hmv].
          - apply (Hni t1 p c1). exists sg, i, f, []. apply elem_of_app. right. left.
          - rewrite (ds_dat _ _ _ Hd) in Hk. apply lookup_insert_Some in Hk as [[_ <-]|[_ Hk]]; [injection Hod as <-; by destruct Hx' as [?|?]|].
            apply lookup_insert_Some in Hk as [[_ <-]|[_ Hk]]; [discriminate|]. exact (Hold _ _ _ Hk Hod Hx').
          - exact (IH1 _ _ (lf_treasury _ _ _ _ _ _ _ _ _ _ _ _ _ _ _ F)).
          - destruct (payout_back _ _ _ _ _ _ _ _ _ _ _ _ _ _ _ _ _ (bf_pay _ _ _ _ _ _ _ _ _ _ _ F) Hk (owned_not_token _ _ Hod)) as [[-> ->]|H0].
            + injection Hod as <-. by destruct Hx' as [?|?].
            + exact (Hold _ _ _ H0 Hod Hx').
          - exact (IH1 _ _ Htr). }
        split; intros k; [intros t|]; intros Hk; [eapply (Hno _ _ _ Hk); [reflexivity|by left]|eapply (Hno _ _ _ Hk); [reflexivity|by right]].
      + split; intros k; [intros t|]; intros Hk; pose proof (u_new _ _ _ _ (HM eq_refl) _ _ Hk eq_refl) as H0; [exact (IH1 _ _ H0)|exact (IH2 _ H0)]. }
  split; [|split; [|exact Hnr]].
  - intros sg a index amount proof. destruct (merkle_exec E sg (MClaim a index amount proof) w) as [[w' evs]|e] eqn:Hx; [|by exists e]. exfalso.
    apply merkle_exec_effect in Hx as [_ Heff]. inversion Heff as [| |? ? ? ? tr' m c1 vt dt fee ? ? F| |]; subst.
    exact (Hno _ _ (lf_treasury _ _ _ _ _ _ _ _ _ _ _ _ _ _ _ F)).
  - intros sg a. destruct (merkle_exec E sg (MCollectFees a) w) as [[w' evs]|e] eqn:Hx; [|by exists e]. exfalso.
    apply merkle_exec_effect in Hx as [_ Heff]. inversion Heff as [| | | |? tr' n ? ? Htr ? ? ? ? ?]; subst. exact (Hno _ _ Htr).
Qed.

(** ... and from then on the treasury never stands in the way of a claim: with the treasury, the oracle program and the
    feed of that initialize the fee is the conversion itself, in every later state, ... *)
Theorem C69_fee_available : forall E tr w t p c, env_ok E -> history E any_clock tr w -> merkle_initialized_in tr t p c ->
  claim_fee_in_lamports E t p c w = convert_usd_fee_to_lamports (claim_fee_usd E) p c w.
Proof.
  intros E tr w t p c HE (w0 & Hg & Hr) (sg & i & f & evs & Hin).
  apply elem_of_list_split in Hin as (t1 & t2 & ->). apply run_split in Hr as (wa & Ha & Hr). apply run_cons_inv in Hr as (wb & Hb & Hr).
  assert (reachable E wb) as Hrb.
  { exists (t1 ++ [(AMerkle sg (MInitialize i t f p c), evs)]), w0. split; [exact Hg|]. econstructor; [exact Ha|exact Hb]. }
  inversion Hb as [|? ? ? ? Hsg Hx|]; subst. destruct (C28_merkle_initialize _ _ _ _ _ _ _ _ _ _ HE Hx) as (tr & Ht & Tf & Tp & Tc).
  destruct (C28_merkle_settings _ _ _ _ _ HE Hrb (ex_intro _ t2 Hr) Ht) as [Ht' _].
  unfold merkle_treasury_view in Ht'. unfold claim_fee_in_lamports.
  destruct (load_merkle_treasury w t) as [tr'|e]; cbn [rbind] in *; [|discriminate].
  destruct (check_seeds_bump E PMerkle [s_TREASURY] (tr_bump tr') t) as [[]|e]; cbn [rbind] in *; [|discriminate]. injection Ht' as ->.
  unfold check_address. subst p c. rewrite !Z.eqb_refl. reflexivity.
Qed.

(** ... and whoever meets the conditions below, none of which speaks of the treasury's contents, can claim. *)
Record claim_possible (E : env) (w : world) (sg : list key) (a : claim_accs) (e : airdrop) (fee : Z) (c : campaign) : Prop := {
  lp_signed : la_claimer a ∈ sg;
  lp_campaign : campaign_view (la_campaign a) w = Ok c;
  lp_window : window c (get_current_time w);
  lp_recipient : la_recipient a = e_recipient e;
  lp_unclaimed : has_claimed E (la_campaign a) (la_receipt a) (e_index e) w = Ok false;
  lp_mint : la_mint a = c_mint c /\ exists m, wdat w !! la_mint a = Some (DMint m) /\ m_prog m = la_tp a;
  lp_vault : ata_address E (la_campaign a) (la_mint a) (la_tp a) = Ok (la_vault a) /\
    exists t, wdat w !! la_vault a = Some (DToken t) /\ t_owner t = la_campaign a /\ t_mint t = c_mint c /\
      t_prog t = la_tp a /\ t_frozen t = false /\ e_amount e <= t_amount t;
  (* the dollar fee converts to [fee] *)
  lp_fee : convert_usd_fee_to_lamports (claim_fee_usd E) (la_chainlink a) (la_feed a) w = Ok fee;
  lp_receipt_lam : 0 <= lam w (la_receipt a);
  lp_dest : can_receive E w (la_claimer a) (la_recipient_ata a) (la_recipient a) (la_mint a) (la_tp a) (e_amount e)
    (Z.max 1 (rent_min E 8) + fee);
  lp_token : token_allows E w (la_mint a) (la_vault a) (la_recipient_ata a) (e_amount e) }.
Theorem C69_claims_stay_open : forall E tr w sg a e fee c t p, env_ok E -> history E any_clock tr w ->
  merkle_initialized_in tr (la_treasury a) (la_chainlink a) (la_feed a) -> signers_ok E sg ->
  hash_ok (keccak E) -> tree_ok t -> c_root c = root (keccak E) t -> proof_of (keccak E) t e p ->
  forallb is_key [la_claimer a; la_recipient a; la_recipient_ata a; la_treasury a; la_mint a;
        la_campaign a; la_vault a; la_receipt a; la_chainlink a; la_feed a] = true ->
  claim_possible E w sg a e fee c ->
  exists w', merkle_exec E sg (MClaim a (e_index e) (e_amount e) p) w =
    Ok (w', [EvClaim (e_amount e) (la_campaign a) (la_claimer a) (la_receipt a) fee (e_index e) (la_recipient a)]).
Proof.
  intros E tr w sg a e fee c t p HE Hh Hin Hsg Hk Ht Hroot Hp Hkeys [P1 P2 P3 P4 P5 P6 P7 P8 P9 P10 P11].
  apply (C34_claim_succeeds E w sg a e fee c t p HE); [by exists tr|exact Hsg|exact Hk|exact Ht|exact Hroot|exact Hp|exact Hkeys|].
  split; [exact P1|exact P2|exact P3|exact P4|exact P5|exact P6|exact P7| |exact P9|exact P10|exact P11].
  rewrite (C69_fee_available E tr w _ _ _ HE Hh Hin). exact P8.
Qed.

(** ** Non-vacuity *)
(** C68: the stream is canceled in [w2] at 1600; the withdrawal, which is not one-shot, goes through twice. *)
Example C68_example :
  one_shot (IL (LCancel (cancel_of 1))) = true /\ is_ok (exec E0 [kSender] (IL (LCancel (cancel_of 1))) (T 1600 w2)) = true /\
  is_ok (exec E0 [kSender] (IL (LCancel (cancel_of 1))) w3) = false /\
  is_ok (exec E0 [kOther] (IM (MClaim (claim_by kOther 1500 0 0 kRecipient) 0 500 [leafB; leafC])) (T 1800 w5)) = true /\
  is_ok (exec E0 [kOther] (IM (MClaim (claim_by kOther 1500 0 0 kRecipient) 0 500 [leafB; leafC])) w6) = false /\
  (let w := T 1400 w1 in let i := IL (LWithdraw (withdraw_to 1 kRecipient) 50) in
   one_shot i = false /\
   match exec E0 [kRecipient] i w with Ok (w', _) => is_ok (exec E0 [kRecipient] i w') | Err _ => false end = true).
Proof.
  split; [vm_compute; reflexivity|]. split; [vm_compute; reflexivity|]. split; [vm_compute; reflexivity|].
  split; [vm_compute; reflexivity|]. split; [vm_compute; reflexivity|]. split; vm_compute; reflexivity.
Qed.
(** C69: in [w4] Merkle Instant is not initialized; in [w6] it is, and a claim is possible. *)
Definition is_minit (x : action * list event) : bool := match fst x with AMerkle _ (MInitialize _ _ _ _ _) => true | _ => false end.
Example C69_example :
  (forall t p c, ~ merkle_initialized_in tr4 t p c) /\ merkle_initialized_in tr6 kMTreasury kOracle kFeed /\
  claim_possible E0 w6 [kOther] (claim_by kOther 1500 0 2 kCollector) (Entry 2 kCollector 200) 0 camp6 /\
  exists w', merkle_exec E0 [kOther] (MClaim (claim_by kOther 1500 0 2 kCollector) 2 200 [nodeAB]) w6 =
    Ok (w', [EvClaim 200 (kCampaign 1500 0) kOther (la_receipt (claim_by kOther 1500 0 2 kCollector)) 0 2 kCollector]).
Proof.
  assert (merkle_initialized_in tr6 kMTreasury kOracle kFeed) as Hin.
  { exists [kOther], kOther, kCollector. eexists. unfold tr6, tr5. apply elem_of_app. left. apply elem_of_app. right. unfold tr_5. apply elem_of_list_here. }
  assert (claim_possible E0 w6 [kOther] (claim_by kOther 1500 0 2 kCollector) (Entry 2 kCollector 200) 0 camp6) as Hp.
  { destruct w6_ready as [P1 P2 P3 P4 P5 P6 P7 P8 P9 P10 P11]. split; [exact P1|exact P2|exact P3|exact P4|exact P5|exact P6|exact P7| |exact P9|exact P10|exact P11].
    apply claim_fee_view_inv in P8 as (? & _ & _ & _ & P8). exact P8. }
  split; [|split; [exact Hin|split; [exact Hp|]]].
  - intros t p c (sg & i & f & evs & H).
    assert (existsb is_minit tr4 = true) as Hb by (apply existsb_exists; eexists; split; [apply elem_of_list_In; exact H|reflexivity]).
    revert Hb. vm_compute. discriminate.
  - refine (C69_claims_stay_open E0 tr6 w6 [kOther] (claim_by kOther 1500 0 2 kCollector) (Entry 2 kCollector 200) 0 camp6 tree3 [nodeAB]
      E0_ok (history_any _ _ _ _ w6_hist) Hin _ keccak_hash_ok tree3_ok _ tree3_proof2 _ Hp).
    + intros k ->%elem_of_list_singleton. split; vm_compute; reflexivity.
    + symmetry. exact tree3_root.
    + vm_compute. reflexivity.
Qed.

(** Finding 9: the sender does not sign a creation, so anybody can use up somebody else's (sender, salt) pair: [kSender] creates the
    stream (kOther, 7); from then on [kOther] cannot create its own stream with salt 7. *)
Definition create_as (creator sender salt : Z) : create_accs :=
  CreateAccs creator (ata creator kToken SplToken) kRecipient sender kCollData (kEdition kCollMint)
    (kMetadata kCollMint) kCollMint kToken (kNft sender salt) (ata kRecipient (kNft sender salt) SplToken)
    (kStream sender salt) (kVault sender salt) (kEdition (kNft sender salt)) (kMetadata (kNft sender salt))
    SplToken SplToken.
Theorem C68_salt_squatting : forall E w sg a p w1 evs w2 sg' a' p', env_ok E -> reachable E w -> signers_ok E sg ->
  lockup_exec E sg (LCreateTs a p) w = Ok (w1, evs) -> ca_sender a ∉ sg -> later E w1 w2 ->
  ca_sender a' = ca_sender a -> p_salt p' = p_salt p -> is_ok (lockup_exec E sg' (LCreateTs a' p') w2) = false.
Proof.
  intros E w sg a p w1 evs w2 sg' a' p' HE Hr Hsg Hx _ Hl Ha Hp.
  apply (C23_create_once E w sg (LCreateTs a p) w1 evs (ca_sender a) (p_salt p) w2 sg' (LCreateTs a' p') HE Hr Hsg); [|exact Hx|exact Hl|].
  - left. by exists a, p.
  - left. by exists a', p'.
Qed.
Example C68_salt_squatting_example :
  is_ok (lockup_exec E0 [kSender] (LCreateTs (create_as kSender kOther 7) (CreateArgs 7 1 1100 1200 2000 0 0 true)) w_ini) = true /\
  ca_sender (create_as kSender kOther 7) ∉ [kSender].
Proof. split; [vm_compute; reflexivity|]. change (kOther ∉ [kSender]). intros H%elem_of_list_singleton. revert H. vm_compute. discriminate. Qed.

Print Assumptions C68_no_replay.
Print Assumptions C68_at_most_once.
Print Assumptions C69_no_claim_before.
Print Assumptions C69_fee_available.
Print Assumptions C69_claims_stay_open.
