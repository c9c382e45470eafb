(** C36, C38, C39, C43: campaigns over time. *)
From Verif Require Export PropClaim.

(** The claims paid from campaign [k], in order, as the events report them. *)
Definition claimed_by (k : key) (e : event) : list airdrop :=
  match e with EvClaim amount ck _ _ _ index recipient => if ck =? k then [Entry index recipient amount] else [] | _ => [] end.
Definition claims_of (k : key) (evs : list event) : list airdrop := flat_map (claimed_by k) evs.
Lemma claims_of_app k e1 e2 : claims_of k (e1 ++ e2) = claims_of k e1 ++ claims_of k e2.
Proof. apply flat_map_app. Qed.

(** ** Campaigns along steps *)
Definition is_merkle (a : action) : bool := match a with AMerkle _ _ => true | _ => false end.
Lemma lockup_no_claims E sg ix w w' evs k : lockup_exec E sg ix w = Ok (w', evs) -> claims_of k evs = [] /\ campaign_paid k evs = 0.
Proof.
  intros Hx. apply lockup_exec_effect in Hx as [_ Heff].
  destruct Heff as [a f p c tb nb ? F|ix a p ct nc cm dm sb s1 nm c0 c1 ? ? Hix Hargs F|a s1 st ? ? Hsi Hse Hs ? ? ? ? -> ->|a mt s1 vt dt st ? ? F
      |ix a am tr mt nt s1 s' vt dt fee wd ? ? Hix Ham F|a tr n ? Hc Htr ? ? -> ? Hmv]; try done.
  - by rewrite (rf_evs _ _ _ _ _ _ _ _ _ _ _ _ _ _ _ _ F).
  - by rewrite (cf_evs _ _ _ _ _ _ _ _ _ _ _ F).
  - by rewrite (wf_evs _ _ _ _ _ _ _ _ _ _ _ _ _ _ _ _ F).
Qed.

(** The only events with claims are those of claim instructions. *)
Lemma merkle_claims E sg ix w w' evs : merkle_exec E sg ix w = Ok (w', evs) ->
  (exists a i am pf tr m c vt dt fee, ix = MClaim a i am pf /\ claim_facts E sg a i am pf w w' evs tr m c vt dt fee /\
     forall k, claims_of k evs = if la_campaign a =? k then [Entry i (la_recipient a) am] else []) \/
  ((forall a i am pf, ix <> MClaim a i am pf) /\ forall k, claims_of k evs = []).
Proof.
  intros Hx. apply merkle_exec_effect in Hx as [_ Heff].
  destruct Heff as [i t1 f p c1 b ? Hi Ht Hn Hne Hd Hr|a g mt b c1 ? ? Hi Hm Hmp Hf Hn1 Hn2 Hne Hv Hc Hsz Hd ->|a i am pf tr mt c1 vt dt fee ? ? F
      |a am mt c1 vt dt ? ? F|a tr n ? Hc Htr Hcc Hca -> Hnpos Hmv].
  - by right.
  - by right.
  - left. exists a, i, am, pf, tr, mt, c1, vt, dt, fee. split; [done|]. split; [exact F|]. intros k.
    rewrite (lf_evs _ _ _ _ _ _ _ _ _ _ _ _ _ _ _ F). unfold claims_of. simpl. by rewrite app_nil_r.
  - right. split; [done|]. intros k. by rewrite (bf_evs _ _ _ _ _ _ _ _ _ _ _ F).
  - by right.
Qed.

Lemma untouched_campaign E w w' k c : untouched E PMerkle w w' -> wdat w !! k = Some (DCampaign c) -> wdat w' !! k = Some (DCampaign c).
Proof. intros Hu Hk. by apply (u_data _ _ _ _ Hu _ _ Hk eq_refl). Qed.

Lemma step_campaign E C w a evs w' k c : env_ok E -> token_sane E w -> step E C w a evs w' ->
  wdat w !! k = Some (DCampaign c) ->
  exists c', wdat w' !! k = Some (DCampaign c') /\
   ((exists sg ix, a = AMerkle sg ix /\ signers_ok E sg /\ merkle_exec E sg ix w = Ok (w', evs) /\
      wclock w' = wclock w /\ campaign_change E sg w w' evs k c ix c') \/
    (is_merkle a = false /\ c' = c /\ claims_of k evs = [] /\ campaign_paid k evs = 0)).
Proof.
  intros HE Hts Hs Hk. pose proof (step_keeps _ _ _ _ _ _ HE Hts Hs) as [_ HM _ _].
  destruct Hs as [sg ix evs w' Hsg Hx|sg ix evs w' Hsg Hx|w' Ho Hc].
  - exists c. split; [by apply (untouched_campaign E w w'); [apply HM|]|]. right.
    destruct (lockup_no_claims _ _ _ _ _ _ k Hx). done.
  - destruct (merkle_exec_effect _ _ _ _ _ _ Hx) as [_ Heff].
    destruct (merkle_campaign _ _ _ _ _ _ _ _ Heff Hk) as (c' & Hk' & Hch).
    exists c'. split; [done|]. left. exists sg, ix. split_and!; try done.
    exact (merkle_clock _ _ _ _ _ _ HE Hsg Hx).
  - exists c. split; [by apply (untouched_campaign E w w'); [apply HM|]|]. by right.
Qed.

(** Induction over what happens to one campaign in a run. *)
Lemma run_campaign (P : world -> campaign -> Prop) E C w0 c0 tr w k : env_ok E -> inv E w0 -> run E C w0 tr w ->
  wdat w0 !! k = Some (DCampaign c0) -> P w0 c0 ->
  (forall w a evs w' c c', inv E w -> step E C w a evs w' -> wdat w !! k = Some (DCampaign c) -> wdat w' !! k = Some (DCampaign c') ->
    P w c ->
    ((exists sg ix, a = AMerkle sg ix /\ signers_ok E sg /\ merkle_exec E sg ix w = Ok (w', evs) /\
        wclock w' = wclock w /\ campaign_change E sg w w' evs k c ix c') \/
     (is_merkle a = false /\ c' = c /\ claims_of k evs = [] /\ campaign_paid k evs = 0)) -> P w' c') ->
  exists c, wdat w !! k = Some (DCampaign c) /\ P w c.
Proof.
  intros HE Hi Hr Hk HP Hstep. induction Hr as [|tr w a evs w' Hr IH Hs]; [by exists c0|].
  destruct IH as (c & Hc1 & HPc). pose proof (run_inv _ _ _ _ _ HE Hi Hr) as Hiw.
  destruct (step_campaign _ _ _ _ _ _ _ _ HE (inv_sane _ _ Hiw) Hs Hc1) as (c' & Hc' & Hch).
  exists c'. split; [done|]. by eapply Hstep.
Qed.

(** ** C43 *)
Theorem C43_terms : forall E w w' k c, env_ok E -> reachable E w -> later E w w' -> campaign_view k w = Ok c ->
  exists c', campaign_view k w' = Ok c' /\ same_campaign_terms c c'.
Proof.
  intros E w w' k c HE Hr [tr Hrun] Hc%load_campaign_ok.
  destruct (run_campaign (fun _ c' => same_campaign_terms c c') E any_clock w c tr w' k HE (reachable_inv _ _ HE Hr) Hrun Hc) as (c' & Hk' & Ht).
  - done.
  - intros w1 a evs w2 c1 c2 _ _ _ _ HP [(sg & ix & _ & _ & _ & _ & Hch)|(_ & -> & _)]; [|done].
    eapply same_campaign_terms_trans; [exact HP|]. by eapply campaign_change_terms.
  - exists c'. split; [by apply load_campaign_ok|done].
Qed.

(** A campaign is created with the arguments of its creation. *)
Theorem C43_created : forall E sg a g w w' evs, merkle_exec E sg (MCreateCampaign a g) w = Ok (w', evs) ->
  exists c, campaign_view (na_campaign a) w' = Ok c /\ c_creator c = na_creator a /\ c_mint c = na_mint a /\ c_root c = g_root g /\
    c_start c = g_start g /\ c_expiration c = g_expiration g /\ c_name c = g_name g /\ c_ipfs c = g_ipfs g /\
    c_first_claim c = 0 /\ na_creator a ∈ sg.
Proof.
  intros E sg a g w w' evs Hx. apply merkle_exec_effect in Hx as [_ Heff].
  inversion Heff as [|? ? m b c ? ? Hi Hm Hmp Hf Hn1 Hn2 Hne Hv Hc Hsz Hd Hev| | |]; subst.
  eexists. split; [apply load_campaign_ok; rewrite (ds_dat _ _ _ Hd); apply lookup_insert|]. done.
Qed.

(** ** C36 *)
Definition key_index (e : event) : list (key * Z) := match e with EvClaim _ ck _ _ _ i _ => [(ck, i)] | _ => [] end.

(** Receipts record exactly the claims made. *)
Record receipts_ok (E : env) (evs : list event) (w : world) : Prop := {
  ro_event : forall am k cl r fee i rec, EvClaim am k cl r fee i rec ∈ evs ->
    (exists b, find_program_address E PMerkle (receipt_seeds k i) = Ok (r, b)) /\ wdat w !! r = Some DClaimReceipt /\
    key_ok k /\ 0 <= i <= 4294967295;
  ro_receipt : forall r, wdat w !! r = Some DClaimReceipt -> exists am k cl fee i rec, EvClaim am k cl r fee i rec ∈ evs;
  ro_once : NoDup (flat_map key_index evs) }.

Lemma not_claim_event evs am k cl r fee i rec : claims_of k evs = [] -> EvClaim am k cl r fee i rec ∉ evs.
Proof.
  intros Hc Hin. induction evs as [|e evs IH]; [by apply elem_of_nil in Hin|]. simpl in Hc. apply app_eq_nil in Hc as [H1 H2].
  apply elem_of_cons in Hin as [<-|Hin]; [|by apply IH]. simpl in H1. by rewrite Z.eqb_refl in H1.
Qed.
Lemma no_claims_key_index evs : (forall k, claims_of k evs = []) -> flat_map key_index evs = [].
Proof.
  intros H. induction evs as [|e evs IH]; [done|]. simpl. rewrite IH.
  - destruct e as [| | | | |am ck ? ? ? ? ?| | |]; try done. pose proof (H ck) as Hk. simpl in Hk. by rewrite Z.eqb_refl in Hk.
  - intros k. specialize (H k). simpl in H. by apply app_eq_nil in H as [_ ?].
Qed.

Lemma elem_key_index k i evs : (k, i) ∈ flat_map key_index evs <-> exists am cl r fee rec, EvClaim am k cl r fee i rec ∈ evs.
Proof.
  rewrite elem_of_list_In, in_flat_map. split.
  - intros (e & He & Hk). destruct e; try done. simpl in Hk. destruct Hk as [[= <- <-]|[]]. apply elem_of_list_In in He. by do 5 eexists.
  - intros (am & cl & r & fee & rec & He). eexists. split; [apply elem_of_list_In; exact He|]. by left.
Qed.

Lemma step_receipts E C evs w a evs1 w' : env_ok E -> token_sane E w -> step E C w a evs1 w' -> receipts_ok E evs w ->
  receipts_ok E (evs ++ evs1) w'.
Proof.
  intros HE Hts Hst [R1 R2 R3]. pose proof (step_keeps _ _ _ _ _ _ HE Hts Hst) as [_ HM _ _].
  assert (forall w2, untouched E PMerkle w w2 -> (forall k, claims_of k evs1 = []) -> receipts_ok E (evs ++ evs1) w2) as Hunt.
  { intros w2 Hu Hn. split.
    - intros am k cl r fee i rec [Hin|Hin]%elem_of_app; [|by apply not_claim_event in Hin].
      destruct (R1 _ _ _ _ _ _ _ Hin) as (? & Hr & ?). split; [assumption|]. split; [|done]. by apply (u_data _ _ _ _ Hu _ _ Hr).
    - intros r Hr. apply (u_new _ _ _ _ Hu) in Hr; [|done]. destruct (R2 _ Hr) as (am & k & cl & fee & i & rec & Hin).
      exists am, k, cl, fee, i, rec. apply elem_of_app. by left.
    - rewrite flat_map_app, (no_claims_key_index evs1) by done. by rewrite app_nil_r. }
  destruct Hst as [sg ix evs1 w' Hsg Hx|sg ix evs1 w' Hsg Hx|w' Ho Hc].
  - apply Hunt; [by apply HM|]. intros k. by apply (lockup_no_claims _ _ _ _ _ _ k Hx).
  - destruct (merkle_exec_effect _ _ _ _ _ _ Hx) as [Hixok Heff].
    pose proof (fun k => merkle_receipt _ _ _ _ _ _ k Heff) as Hrec.
    destruct (merkle_claims _ _ _ _ _ _ Hx) as [(ac & i & am & pf & tr & m & c & vt & dt & fee & -> & F & Hcl)|[Hn Hcl]].
    + pose proof F as F0. destruct F0. subst evs1.
      assert (0 <= i <= 4294967295 /\ key_ok (la_campaign ac)) as [Hi Hkc] by (simpl in Hixok; ranges; done).
      split.
      * intros am' k' cl' r' fee' i' rec' [Hin|Hin]%elem_of_app.
        -- destruct (R1 _ _ _ _ _ _ _ Hin) as (? & Hr & ?). split; [assumption|]. split; [|done]. by apply (Hrec r').
        -- apply elem_of_list_singleton in Hin as [= -> -> -> -> -> -> ->]. split; [exact lf_receipt_addr|].
           split; [|done]. by apply (Hrec 0) with (1 := eq_refl).
      * intros r Hr. destruct (proj1 (proj2 (Hrec r)) Hr) as [Hr0|(a' & i' & am' & pf' & tr' & m' & c' & vt' & dt' & fee' & [= <- <- <- <-] & -> & F')].
        -- destruct (R2 _ Hr0) as (am' & k' & cl' & fee' & i' & rec' & Hin). exists am', k', cl', fee', i', rec'. apply elem_of_app. by left.
        -- do 6 eexists. apply elem_of_app. right. apply elem_of_list_singleton. done.
      * rewrite flat_map_app. simpl. apply NoDup_app. split_and!; [done| |apply NoDup_singleton].
        intros [k' i'] Hin Heq%elem_of_list_singleton. injection Heq as -> ->.
        apply elem_key_index in Hin as (am' & cl' & r' & fee' & rec' & Hin).
        destruct (R1 _ _ _ _ _ _ _ Hin) as ((b & Hb) & Hr & _). destruct lf_receipt_addr as [b' Hb'].
        destruct (fpa_fun _ _ _ _ _ _ _ Hb Hb') as [-> _]. discriminate (eq_trans (eq_sym Hr) lf_receipt).
    + split.
      * intros am k cl r fee i rec [Hin|Hin]%elem_of_app; [|by apply not_claim_event in Hin].
        destruct (R1 _ _ _ _ _ _ _ Hin) as (? & Hr & ?). split; [assumption|]. split; [|done]. by apply (Hrec r).
      * intros r Hr. destruct (proj1 (proj2 (Hrec r)) Hr) as [Hr0|(a' & i' & am' & pf' & tr' & m' & c' & vt' & dt' & fee' & -> & _)].
        -- destruct (R2 _ Hr0) as (am' & k' & cl' & fee' & i' & rec' & Hin). exists am', k', cl', fee', i', rec'. apply elem_of_app. by left.
        -- by destruct (Hn a' i' am' pf').
      * rewrite flat_map_app, (no_claims_key_index evs1) by done. by rewrite app_nil_r.
  - apply Hunt; [by apply HM|done].
Qed.
Lemma history_receipts E C tr w : env_ok E -> history E C tr w -> receipts_ok E (events tr) w.
Proof.
  intros HE (w0 & Hg & Hr). induction Hr as [|tr w a evs w' Hr IH Hst].
  - split; [intros * Hin; by apply elem_of_nil in Hin|intros r Hr; by apply (g_data _ _ Hg) in Hr|constructor].
  - rewrite events_app, events_one. eapply step_receipts; [done| |exact Hst|exact IH].
    apply (inv_sane _ _ (run_inv _ _ _ _ _ HE (genesis_inv _ _ Hg) Hr)).
Qed.

Lemma claims_index k evs i : i ∈ map e_index (claims_of k evs) <-> (k, i) ∈ flat_map key_index evs.
Proof.
  rewrite !elem_of_list_In, in_map_iff, in_flat_map. split.
  - intros (e & He & Hin). unfold claims_of in Hin. apply in_flat_map in Hin as (ev & Hev & Hin). exists ev. split; [done|].
    destruct ev; try done. simpl in *. destruct (Z.eqb_spec campaign k); [|done]. destruct Hin as [<-|[]]. left. by subst.
  - intros (ev & Hev & Hin). destruct ev; try done. simpl in Hin. destruct Hin as [[= -> ->]|[]].
    eexists. split; [|unfold claims_of; apply in_flat_map; eexists; split; [exact Hev|simpl; rewrite Z.eqb_refl; left; done]]. done.
Qed.
Lemma claims_nodup k evs : NoDup (flat_map key_index evs) -> NoDup (map e_index (claims_of k evs)).
Proof.
  induction evs as [|e evs IH]; [constructor|]. cbn [flat_map]. intros [H1 [H2 H3]]%NoDup_app. unfold claims_of. cbn [flat_map].
  rewrite map_app. apply NoDup_app. split_and!; [|intros i Hi Hi2|by apply IH].
  - destruct e; try constructor. simpl. destruct (_ =? k); [apply NoDup_singleton|constructor].
  - apply claims_index in Hi2. apply (H2 (k, i)); [|done]. destruct e; simpl in Hi; try by apply elem_of_nil in Hi.
    destruct (Z.eqb_spec campaign k) as [->|]; simpl in Hi; [|by apply elem_of_nil in Hi]. apply elem_of_list_singleton in Hi as ->. by left.
Qed.

(** Each index of each campaign is claimed at most once. *)
Theorem C36_once : forall E tr w k, env_ok E -> history E any_clock tr w -> NoDup (map e_index (claims_of k (events tr))).
Proof. intros E tr w k HE Hh. apply claims_nodup, (ro_once _ _ _ (history_receipts _ _ _ _ HE Hh)). Qed.

(** A claim of an index already claimed fails, whatever else is passed. *)
Theorem C36_second_fails : forall E tr w sg a index amount proof, env_ok E -> history E any_clock tr w ->
  index ∈ map e_index (claims_of (la_campaign a) (events tr)) ->
  is_ok (merkle_exec E sg (MClaim a index amount proof) w) = false.
Proof.
  intros E tr w sg a i am pf HE Hh Hin. destruct (merkle_exec _ _ _ _) as [[w' evs]|] eqn:Hx; [|done]. exfalso.
  apply exec_claim_inv in Hx as (_ & tr' & m & c & vt & dt & fee & F). destruct F.
  apply claims_index, elem_key_index in Hin as (am' & cl' & r' & fee' & rec' & Hin).
  destruct (ro_event _ _ _ (history_receipts _ _ _ _ HE Hh) _ _ _ _ _ _ _ Hin) as ((b & Hb) & Hr & _).
  destruct lf_receipt_addr as [b' Hb']. destruct (fpa_fun _ _ _ _ _ _ _ Hb Hb') as [-> _]. discriminate (eq_trans (eq_sym Hr) lf_receipt).
Qed.

(** The Merkle Instant accounts there are, by what their address is derived from. *)
Definition account_of (tr : trace) (w : world) (x : merkle_address) : Prop :=
  match x with
  | MTreasury => True
  | MCampaign cr root st ex name m => exists k c, campaign_view k w = Ok c /\ c_creator c = cr /\ c_root c = root /\
      c_start c = st /\ c_expiration c = ex /\ c_name c = name /\ c_mint c = m
  | MReceipt k i => i ∈ map e_index (claims_of k (events tr))
  end.

(** has_claimed is true exactly for the indices claimed, unless the receipt's address collides with that of another
    account there is. *)
Theorem C36_has_claimed : forall E tr w k r i b, env_ok E -> history E any_clock tr w -> 0 <= i <= 4294967295 ->
  has_claimed E k r i w = Ok b ->
  (i ∈ map e_index (claims_of k (events tr)) -> b = true) /\
  (b = true -> i ∈ map e_index (claims_of k (events tr)) \/
     exists x b1 b2, account_of tr w x /\ x <> MReceipt k i /\
       find_program_address E PMerkle (merkle_seeds x) = Ok (r, b1) /\ find_program_address E PMerkle (receipt_seeds k i) = Ok (r, b2) /\
       collides E PMerkle (seed_string (merkle_seeds x) b1) (seed_string (receipt_seeds k i) b2)).
Proof.
  intros E tr w k r i b HE Hh Hi Hcl. apply has_claimed_inv in Hcl as ((c & Hc%load_campaign_ok) & (bump & Hb) & Hbr).
  pose proof (history_receipts _ _ _ _ HE Hh) as [R1 R2 R3]. pose proof (history_inv _ _ _ _ HE Hh) as Hinv. split.
  - intros Hin. apply Hbr. apply claims_index, elem_key_index in Hin as (am' & cl' & r' & fee' & rec' & Hin).
    destruct (R1 _ _ _ _ _ _ _ Hin) as ((b' & Hb') & Hr & _). destruct (fpa_fun _ _ _ _ _ _ _ Hb Hb') as [-> _].
    intros Hn. discriminate (eq_trans (eq_sym Hr) Hn).
  - intros Ht. apply Hbr in Ht. destruct (wdat w !! r) as [d|] eqn:Hd; [|done].
    pose proof (fpa_pda _ _ _ _ _ HE Hb) as [Hpda _].
    pose proof (ci_addr _ _ _ _ (mi_campaign _ _ (inv_merkle _ _ Hinv) _ _ Hc)) as Hka.
    assert (key_ok k) as Hk by (by apply fpa_pda in Hka as [_ ?]).
    destruct (reachable_pdas E w HE (ex_intro _ tr Hh)) as [_ Hp]. pose proof (Hp _ _ Hpda Hd) as Hown.
    assert (forall x b1, merkle_address_ok x -> account_of tr w x -> find_program_address E PMerkle (merkle_seeds x) = Ok (r, b1) ->
      x <> MReceipt k i -> exists x b1 b2, account_of tr w x /\ x <> MReceipt k i /\
       find_program_address E PMerkle (merkle_seeds x) = Ok (r, b1) /\ find_program_address E PMerkle (receipt_seeds k i) = Ok (r, b2) /\
       collides E PMerkle (seed_string (merkle_seeds x) b1) (seed_string (receipt_seeds k i) b2)) as Hgo.
    { intros x b1 Hx Hax Hfx Hne. exists x, b1, bump. split; [exact Hax|]. split; [exact Hne|]. split; [exact Hfx|]. split; [exact Hb|].
      pose proof (fpa_cpa _ _ _ _ _ Hfx) as [H1 _]. pose proof (fpa_cpa _ _ _ _ _ Hb) as [H2 _].
      destruct (cpa_cases _ _ _ _ _ _ _ H1 H2) as [Heq|Hco]; [|exact Hco].
      apply (merkle_seeds_inj x (MReceipt k i)) in Heq as [? _]; [done|done|done]. }
    destruct d; try discriminate Hown.
    + right. destruct (mi_campaign _ _ (inv_merkle _ _ Hinv) _ _ Hd) as [Hok Ha _].
      eapply (Hgo (MCampaign _ _ _ _ _ _)); [| |exact Ha|done].
      * destruct Hok as [[? ?] ? ? ? Hroot ? ? ?]. simpl. apply is_hash_32 in Hroot as [? _]. done.
      * simpl. exists r. eexists. split; [apply load_campaign_ok; exact Hd|done].
    + destruct (R2 _ Hd) as (am' & k' & cl' & fee' & i' & rec' & Hin). destruct (R1 _ _ _ _ _ _ _ Hin) as ((b' & Hb') & _ & Hk' & Hi').
      assert (i' ∈ map e_index (claims_of k' (events tr))) as Hin' by (apply claims_index, elem_key_index; by do 5 eexists).
      destruct (decide (k' = k /\ i' = i)) as [[-> ->]|Hne]; [by left|]. right.
      eapply (Hgo (MReceipt k' i')); [done|exact Hin'|exact Hb'|]. intros [= ? ?]. tauto.
    + right. destruct (mi_treasury _ _ (inv_merkle _ _ Hinv) _ _ Hd) as [Ha _ _].
      eapply (Hgo MTreasury); [done|done|exact Ha|done].
Qed.

(** ** C38 *)
(** Claims only come from existing campaigns. *)
Lemma history_claims E C tr w k : env_ok E -> history E C tr w -> claims_of k (events tr) <> [] -> exists c, wdat w !! k = Some (DCampaign c).
Proof.
  intros HE (w0 & Hg & Hr). induction Hr as [|tr w a evs w' Hr IH Hst]; [done|].
  pose proof (run_inv _ _ _ _ _ HE (genesis_inv _ _ Hg) Hr) as Hi.
  rewrite events_app, events_one, claims_of_app. intros Hne.
  assert (exists c, wdat w !! k = Some (DCampaign c)) as (c & Hk).
  { destruct (claims_of k (events tr)) as [|x l]; [|by apply IH]. simpl in Hne.
    destruct Hst as [sg ix evs w' Hsg Hx|sg ix evs w' Hsg Hx|w' Ho Hc].
    - by rewrite (proj1 (lockup_no_claims _ _ _ _ _ _ k Hx)) in Hne.
    - destruct (merkle_claims _ _ _ _ _ _ Hx) as [(ac & i & am & pf & tr' & m & c & vt & dt & fee & -> & F & Hcl)|[_ Hcl]]; rewrite Hcl in Hne; [|done].
      destruct (Z.eqb_spec (la_campaign ac) k) as [<-|]; [|done]. eexists. exact (lf_campaign _ _ _ _ _ _ _ _ _ _ _ _ _ _ _ F).
    - done. }
  destruct (step_campaign _ _ _ _ _ _ _ _ HE (inv_sane _ _ Hi) Hst Hk) as (c' & ? & _). by exists c'.
Qed.

(** Some claim of campaign [k] in the trace exhibits a hash collision with the tree. *)
Definition trace_collision (E : env) (tr : trace) (k : key) (t : mtree) : Prop :=
  exists sg a i am pf evs, (AMerkle sg (MClaim a i am pf), evs) ∈ tr /\ la_campaign a = k /\
    collision (keccak E) t (Entry i (la_recipient a) am) pf.

Lemma history_claims_in_tree E tr w k c t : env_ok E -> history E any_clock tr w -> hash_ok (keccak E) -> tree_ok t ->
  wdat w !! k = Some (DCampaign c) -> c_root c = root (keccak E) t ->
  (forall e, e ∈ claims_of k (events tr) -> e ∈ entries t) \/ trace_collision E tr k t.
Proof.
  intros HE (w0 & Hg & Hr) HH Ht. revert c. induction Hr as [|tr w a evs w' Hr IH Hst]; intros c Hc Hroot.
  { left. intros e He. by apply elem_of_nil in He. }
  pose proof (run_inv _ _ _ _ _ HE (genesis_inv _ _ Hg) Hr) as Hi.
  rewrite events_app, events_one, claims_of_app.
  assert ((forall e, e ∈ claims_of k (events tr) -> e ∈ entries t) \/ trace_collision E tr k t) as [Hin|(sg & ac & i & am & pf & evs' & H1 & H2)].
  { destruct (claims_of k (events tr)) as [|e0 l0] eqn:Hcl0; [left; intros e He; by apply elem_of_nil in He|]. assert (claims_of k (events tr) <> []) as Hne by (rewrite Hcl0; done); rewrite <- Hcl0 in IH |- *.
    destruct (history_claims E any_clock tr w k HE (ex_intro _ w0 (conj Hg Hr)) Hne) as (c0 & Hk0).
    destruct (step_campaign _ _ _ _ _ _ _ _ HE (inv_sane _ _ Hi) Hst Hk0) as (c' & Hk' & Hch).
    assert (c' = c) as -> by congruence.
    apply (IH c0 Hk0). destruct Hch as [(sg & ix & _ & _ & _ & _ & Hch)|(_ & -> & _)]; [|done].
    apply campaign_change_terms in Hch as (_ & _ & Hro & _). congruence. }
  2:{ right. exists sg, ac, i, am, pf, evs'. split; [|done]. apply elem_of_app. by left. }
  destruct Hst as [sg ix evs w' Hsg Hx|sg ix evs w' Hsg Hx|w' Ho Hcl].
  - left. rewrite (proj1 (lockup_no_claims _ _ _ _ _ _ k Hx)), app_nil_r. done.
  - destruct (merkle_claims _ _ _ _ _ _ Hx) as [(ac & i & am & pf & tr' & m & c0 & vt & dt & fee & -> & F & Hcl)|[_ Hcl]]; rewrite Hcl.
    2:{ rewrite app_nil_r. by left. }
    destruct (Z.eqb_spec (la_campaign ac) k) as [<-|]; [|rewrite app_nil_r; by left].
    pose proof (lf_campaign _ _ _ _ _ _ _ _ _ _ _ _ _ _ _ F) as Hc0.
    destruct (step_campaign E any_clock w _ evs w' _ _ HE (inv_sane _ _ Hi) (step_merkle _ _ _ _ _ _ _ Hsg Hx) Hc0) as (c' & Hk' & Hch).
    assert (c' = c) as -> by congruence.
    assert (c_root c0 = root (keccak E) t) as Hr0.
    { destruct Hch as [(sg' & ix & _ & _ & _ & _ & Hch)|(? & _)]; [|done].
      apply campaign_change_terms in Hch as (_ & _ & Hro & _). congruence. }
    destruct (C35_claim E sg ac i am pf w w' evs c0 t HH Ht) as [He|Hco]; [by apply load_campaign_ok|done|exact Hx| |].
    + left. intros e [?|Heq%elem_of_list_singleton]%elem_of_app; [by apply Hin|]. by subst e.
    + right. exists sg, ac, i, am, pf, evs. split; [|done]. apply elem_of_app. right. by apply elem_of_list_singleton.
  - left. by rewrite app_nil_r.
Qed.

Lemma sum_submseteq l1 l2 : (forall e, e ∈ l2 -> 0 <= e_amount e) -> l1 ⊆+ l2 -> sum_amounts l1 <= sum_amounts l2.
Proof.
  intros Hp Hs. assert (sum_amounts l2 = sum_amounts l2) as Hx by done. revert Hp. induction Hs as [|x l1 l2 _ IH|x y l|x l1 l2 _ IH|l1 l2 l3 _ IH1 Hs2 IH2]; intros Hp; unfold sum_amounts in *; simpl in *.
  - lia.
  - apply Z.add_le_mono_l, IH; [done|]. intros e He. apply Hp. by right.
  - lia.
  - assert (0 <= e_amount x) by (apply Hp; left). specialize (IH eq_refl ltac:(intros e He; apply Hp; by right)). lia.
  - specialize (IH2 eq_refl Hp). etransitivity; [apply IH1; [done|]|exact IH2].
    intros e He. apply Hp. by eapply elem_of_submseteq.
Qed.

Theorem C38_claims_bounded : forall E tr w k c t, env_ok E -> history E any_clock tr w -> hash_ok (keccak E) -> tree_ok t ->
  campaign_view k w = Ok c -> c_root c = root (keccak E) t ->
  (NoDup (map e_index (claims_of k (events tr))) /\ (forall e, e ∈ claims_of k (events tr) -> e ∈ entries t) /\
   sum_amounts (claims_of k (events tr)) <= sum_amounts (entries t)) \/ trace_collision E tr k t.
Proof.
  intros E tr w k c t HE Hh HH Ht Hc%load_campaign_ok Hroot.
  destruct (history_claims_in_tree E tr w k c t HE Hh HH Ht Hc Hroot) as [Hin|?]; [|by right]. left.
  pose proof (C36_once E tr w k HE Hh) as Hnd. split_and!; [done|done|]. apply sum_submseteq.
  - intros e He. by apply Ht in He as (_ & _ & ? & _).
  - apply NoDup_submseteq; [|done]. by apply (NoDup_fmap_1 e_index).
Qed.

(** ** C39 *)
Lemma campaign_change_first E sg w w' evs k c ix c' : campaign_change E sg w w' evs k c ix c' ->
  (c_first_claim c <> 0 -> c_first_claim c' = c_first_claim c) /\
  ((forall a i am pf, ix = MClaim a i am pf -> la_campaign a <> k) -> c' = c).
Proof.
  intros [ix' H1 H2 H3|a i am pf tr m vt dt fee Hk F Hp|a am m vt dt Hk F Hp].
  - done.
  - split; [|intros H; by destruct (H _ _ _ _ eq_refl)]. intros Hne. unfold campaign_claim. by rewrite (proj2 (Z.eqb_neq _ _) Hne).
  - done.
Qed.
(** Once set, the first claim time never changes. *)
Theorem C39_fixed : forall E w w' k c, env_ok E -> reachable E w -> later E w w' -> campaign_view k w = Ok c -> c_first_claim c <> 0 ->
  exists c', campaign_view k w' = Ok c' /\ c_first_claim c' = c_first_claim c.
Proof.
  intros E w w' k c HE Hr [tr Hrun] Hc%load_campaign_ok Hne.
  destruct (run_campaign (fun _ c' => c_first_claim c' = c_first_claim c) E any_clock w c tr w' k HE (reachable_inv _ _ HE Hr) Hrun Hc) as (c' & Hk' & Ht).
  - done.
  - intros w1 a evs w2 c1 c2 _ _ _ _ HP [(sg & ix & _ & _ & _ & _ & Hch)|(_ & -> & _)]; [|done].
    destruct (campaign_change_first _ _ _ _ _ _ _ _ _ Hch) as [H1 _]. rewrite H1; congruence.
  - exists c'. split; [by apply load_campaign_ok|done].
Qed.
(** It is 0 as long as nobody claimed. *)
Theorem C39_unclaimed : forall E tr w k c, env_ok E -> history E any_clock tr w -> campaign_view k w = Ok c ->
  claims_of k (events tr) = [] -> c_first_claim c = 0.
Proof.
  intros E tr w k c HE (w0 & Hg & Hr) Hc%load_campaign_ok. revert c Hc. induction Hr as [|tr w a evs w' Hr IH Hst]; intros c Hc Hcl.
  { apply (g_data _ _ Hg) in Hc. done. }
  rewrite events_app, events_one, claims_of_app in Hcl. apply app_eq_nil in Hcl as [Hcl1 Hcl2].
  pose proof (run_inv _ _ _ _ _ HE (genesis_inv _ _ Hg) Hr) as Hi.
  assert ((exists c0, wdat w !! k = Some (DCampaign c0)) \/ c_first_claim c = 0) as [(c0 & Hk0)|?]; [|  |done].
  { pose proof (step_keeps _ _ _ _ _ _ HE (inv_sane _ _ Hi) Hst) as [_ HM _ _].
    destruct Hst as [sg ix evs w' Hsg Hx|sg ix evs w' Hsg Hx|w' Ho Hc'].
    - left. exists c. by apply (u_new _ _ _ _ (HM eq_refl)) in Hc.
    - destruct (merkle_exec_effect _ _ _ _ _ _ Hx) as [_ Heff].
      destruct (merkle_new_campaign _ _ _ _ _ _ _ _ Heff Hc) as [?|(a & g & _ & _ & _ & _ & _ & -> & _)]; [by left|by right].
    - left. exists c. by apply (u_new _ _ _ _ (HM eq_refl)) in Hc. }
  destruct (step_campaign _ _ _ _ _ _ _ _ HE (inv_sane _ _ Hi) Hst Hk0) as (c' & Hk' & Hch). assert (c' = c) as -> by congruence.
  destruct Hch as [(sg & ix & -> & Hsg & Hx & _ & Hch)|(_ & -> & _)]; [|by apply IH].
  apply campaign_change_first in Hch as [_ Hch]. rewrite Hch; [by apply IH|].
  intros a i am pf -> <-. apply merkle_claims in Hx as [(ac & i' & am' & pf' & tr' & m & c1 & vt & dt & fee & [= <- <- <- <-] & F & Hcl)|[Hn _]].
  - rewrite Hcl, Z.eqb_refl in Hcl2. done.
  - by destruct (Hn a i am pf).
Qed.
(** The first claim sets it to the time of that claim, and there it stays. *)
Theorem C39_first_claim : forall E tr w sg a i am pf w1 evs w2 c, env_ok E -> history E any_clock tr w ->
  claims_of (la_campaign a) (events tr) = [] ->
  step E any_clock w (AMerkle sg (MClaim a i am pf)) evs w1 -> 0 < get_current_time w -> later E w1 w2 ->
  campaign_view (la_campaign a) w2 = Ok c -> c_first_claim c = get_current_time w.
Proof.
  intros E tr w sg a i am pf w1 evs w2 c HE Hh Hcl Hst Hpos Hlater Hc.
  inversion Hst as [|? ? ? ? Hsg Hx|]; subst. destruct (exec_claim_inv _ _ _ _ _ _ _ _ _ Hx) as (_ & tr' & m & c0 & vt & dt & fee & F).
  pose proof (lf_campaign _ _ _ _ _ _ _ _ _ _ _ _ _ _ _ F) as Hc0.
  pose proof (C39_unclaimed E tr w _ c0 HE Hh (proj2 (load_campaign_ok _ _ _) Hc0) Hcl) as Hz.
  assert (wdat w1 !! la_campaign a = Some (DCampaign (campaign_claim c0 (get_current_time w)))) as Hc1.
  { eapply payout_own; [apply (lf_pay _ _ _ _ _ _ _ _ _ _ _ _ _ _ _ F)|apply (lf_vault _ _ _ _ _ _ _ _ _ _ _ _ _ _ _ F)|exact Hc0|done]. }
  assert (c_first_claim (campaign_claim c0 (get_current_time w)) = get_current_time w) as Hf by (unfold campaign_claim; by rewrite Hz).
  destruct (C39_fixed E w1 w2 (la_campaign a) (campaign_claim c0 (get_current_time w)) HE) as (c' & Hc' & Hf'); [|done|by apply load_campaign_ok|lia|].
  - apply (reachable_later E w); [by exists tr|]. by eapply step_later.
  - congruence.
Qed.
(** The clock being positive is needed: a first claim at time 0 leaves the field 0 and the next claim sets it. *)
Theorem C39_clock_zero : forall E sg a i am pf w w1 evs c, campaign_view (la_campaign a) w = Ok c -> c_first_claim c = 0 ->
  get_current_time w = 0 -> merkle_exec E sg (MClaim a i am pf) w = Ok (w1, evs) ->
  exists c', campaign_view (la_campaign a) w1 = Ok c' /\ c_first_claim c' = 0.
Proof.
  intros E sg a i am pf w w1 evs c Hc%load_campaign_ok Hz H0 Hx.
  destruct (exec_claim_inv _ _ _ _ _ _ _ _ _ Hx) as (_ & tr' & m & c0 & vt & dt & fee & F).
  pose proof (lf_campaign _ _ _ _ _ _ _ _ _ _ _ _ _ _ _ F) as Hc0. assert (c0 = c) as -> by congruence.
  eexists. split; [apply load_campaign_ok; eapply payout_own; [apply (lf_pay _ _ _ _ _ _ _ _ _ _ _ _ _ _ _ F)|apply (lf_vault _ _ _ _ _ _ _ _ _ _ _ _ _ _ _ F)|exact Hc0|done]|].
  unfold campaign_claim. rewrite Hz. done.
Qed.

(** ** Non-vacuity: the campaign of the example run *)
Example claims_example :
  claims_of (kCampaign 1500 0) (events tr5) = [] /\
  claims_of (kCampaign 1500 0) (events tr7) = [Entry 0 kRecipient 500; Entry 2 kCollector 200] /\
  claims_of (kCampaign 1500 3000) (events tr7) = [].
Proof. split; [vm_compute; reflexivity|]. split; vm_compute; reflexivity. Qed.
Lemma w7_reach : reachable E0 w7.
Proof. exact (history_reach _ _ _ w7_hist). Qed.
Lemma w7_any : history E0 any_clock tr7 w7.
Proof. exact (history_any _ _ _ _ w7_hist). Qed.
Lemma w7_campaign : campaign_view (kCampaign 1500 0) w7 = Ok camp6.
Proof. vm_compute. reflexivity. Qed.
Example C36_example :
  has_claimed E0 (kCampaign 1500 0) (kReceipt 1500 0 0) 0 w5 = Ok false /\
  has_claimed E0 (kCampaign 1500 0) (kReceipt 1500 0 0) 0 w6 = Ok true /\
  has_claimed E0 (kCampaign 1500 0) (kReceipt 1500 0 1) 1 w7 = Ok false /\
  has_claimed E0 (kCampaign 1500 3000) (kReceipt 1500 3000 0) 0 w7 = Ok false.
Proof. split; [vm_compute; reflexivity|]. split; [vm_compute; reflexivity|]. split; vm_compute; reflexivity. Qed.
Example C38_example : c_root camp6 = root (keccak E0) tree3 /\ sum_amounts (entries tree3) = 1000 /\
  sum_amounts (claims_of (kCampaign 1500 0) (events tr7)) = 700.
Proof. split; [symmetry; exact tree3_root|]. split; vm_compute; reflexivity. Qed.
Example C39_example :
  (exists c, campaign_view (kCampaign 1500 0) w5 = Ok c /\ c_first_claim c = 0) /\ c_first_claim camp6 = 1800.
Proof. split; [|reflexivity]. eexists. split; vm_compute; reflexivity. Qed.

Print Assumptions C36_once.
Print Assumptions C36_second_fails.
Print Assumptions C36_has_claimed.
Print Assumptions C38_claims_bounded.
Print Assumptions C39_fixed.
Print Assumptions C39_unclaimed.
Print Assumptions C39_first_claim.
Print Assumptions C39_clock_zero.
Print Assumptions C43_terms.
Print Assumptions C43_created.
