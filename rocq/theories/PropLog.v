(** C56: the event log tells the state of every stream. *)
From Verif Require Export PropHistory PropCampaign ToyRun.

(** ** Reading the log *)
(** The events that name stream [k]. *)
Definition names_stream (k : key) (e : event) : bool :=
  match e with
  | EvCreateStream _ _ _ _ stream _ => stream =? k
  | EvCancel _ _ _ stream _ => stream =? k
  | EvRenounce _ stream _ => stream =? k
  | EvWithdraw _ _ stream _ _ => stream =? k
  | _ => false
  end.
Definition log_of (k : key) (evs : list event) : list event := List.filter (names_stream k) evs.
Definition withdraw_amount (e : event) : Z := match e with EvWithdraw _ _ _ _ n => n | _ => 0 end.
Definition refund_amount (e : event) : Z := match e with EvCancel _ _ n _ _ => n | _ => 0 end.
Definition sum_of (f : event -> Z) (l : list event) : Z := foldr (fun e acc => f e + acc) 0 l.
Definition is_create_event (e : event) : bool := match e with EvCreateStream _ _ _ _ _ _ => true | _ => false end.
Definition is_cancel_event (e : event) : bool := match e with EvCancel _ _ _ _ _ => true | _ => false end.
Definition is_renounce_event (e : event) : bool := match e with EvRenounce _ _ _ => true | _ => false end.
Definition event_mint (e : event) : option key :=
  match e with EvCreateStream _ _ m _ _ _ | EvCancel m _ _ _ _ | EvRenounce m _ _ | EvWithdraw m _ _ _ _ => Some m | _ => None end.
Definition how_many (f : event -> bool) (l : list event) : nat := length (List.filter f l).

(** The log of stream [k] matches its account [s]. *)
Record log_matches (E : env) (k : key) (s : stream_data) (l : list event) : Prop := {
  (* it starts with the one creation, which names the stream's salt, token and NFT *)
  lm_created : exists dec rec nft rest, nft_mint_of E s nft /\ l = EvCreateStream (s_salt s) dec (s_mint s) rec k nft :: rest;
  lm_once : how_many is_create_event l = 1%nat;
  (* the recorded amounts are the sums of the reported ones *)
  lm_withdrawn : withdrawn (s_amounts s) = sum_of withdraw_amount l;
  lm_refunded : refunded (s_amounts s) = sum_of refund_amount l;
  (* the flags *)
  lm_canceled : how_many is_cancel_event l = (if s_canceled s then 1%nat else 0%nat);
  lm_cancelable : s_cancelable s = true -> how_many is_renounce_event l = 0%nat;
  lm_renounced : (how_many is_renounce_event l <= 1)%nat;
  (* all events of the stream name its token *)
  lm_mint : forall e, e ∈ l -> event_mint e = Some (s_mint s) }.

Lemma sum_of_app f l l' : sum_of f (l ++ l') = sum_of f l + sum_of f l'.
Proof. induction l as [|e l IH]; cbn; [done|]. unfold sum_of in *. cbn. lia. Qed.
Lemma how_many_app f l l' : how_many f (l ++ l') = (how_many f l + how_many f l')%nat.
Proof. unfold how_many. by rewrite List.filter_app, app_length. Qed.
Lemma log_of_app k l l' : log_of k (l ++ l') = log_of k l ++ log_of k l'.
Proof. apply List.filter_app. Qed.

(** What an instruction of Lockup adds to the log of an existing stream. *)
Inductive log_step (k : key) (s : stream_data) : list event -> stream_data -> Prop :=
| ls_none : log_step k s [] s
| ls_renounce nft : s_cancelable s = true -> log_step k s [EvRenounce (s_mint s) k nft] (stream_renounce s)
| ls_cancel q r nft : s_canceled s = false -> s_cancelable s = true -> log_step k s [EvCancel (s_mint s) q r k nft] (stream_cancel s r q)
| ls_withdraw fee nft n s' : stream_withdraw s n = Ok s' -> log_step k s [EvWithdraw (s_mint s) fee k nft n] s'.

Lemma lockup_log E sg ix w w' evs k s : lockup_effect E sg w ix w' evs -> wdat w !! k = Some (DStream s) -> stream_ok s ->
  exists s', wdat w' !! k = Some (DStream s') /\ log_step k s (log_of k evs) s'.
Proof.
  intros Heff Hk Hok.
  destruct Heff as [a f p c tb nb ? F|? a p ct nc cm dm sb s1 nm c0 c1 ? ? Hix Hargs F|a s1 st ? ? Hsg Hse Hs ? ? ? ? -> ->|a m s1 vt dt st ? ? F
    |? a am tr m nt s1 s' vt dt fee wd ? ? Hix Ham F|a tr n ? Hc Htr _ _ _ _ Hmv].
  - exists s. split; [|constructor]. destruct F. rewrite !Forall_cons in if_fresh.
    destruct if_fresh as (? & ? & ? & ? & ? & ? & _). rewrite (ds_dat _ _ _ if_step).
    rewrite !lookup_insert_ne by congruence. done.
  - exists s. pose proof (create_effects _ _ _ _ _ _ _ _ _ _ _ _ _ _ _ _ F) as Hc. destruct F. split.
    + destruct rf_coll_md_kind as (? & ? & ? & ? & ? & ? & -> & _).
      rewrite (ce_other _ _ _ _ _ _ _ _ _ Hc); [done|]. rewrite !not_elem_of_cons. split_and!; try congruence. apply not_elem_of_nil.
    + rewrite rf_evs. cbn. rewrite (proj2 (Z.eqb_neq (ca_stream a) k)) by congruence. constructor.
  - rewrite wdat_set_dat. cbn. destruct (Z.eqb_spec (ra_stream a) k) as [<-|].
    + rewrite lookup_insert. assert (s1 = s) as -> by congruence. eexists. split; [done|]. by constructor.
    + rewrite lookup_insert_ne by done. exists s. split; [done|]. constructor.
  - rewrite (cf_evs _ _ _ _ _ _ _ _ _ _ _ F). cbn. destruct (Z.eqb_spec (xa_stream a) k) as [<-|].
    + assert (s1 = s) as ->. { pose proof (cf_stream _ _ _ _ _ _ _ _ _ _ _ F). congruence. }
      eexists. split; [eapply payout_own; [apply (cf_pay _ _ _ _ _ _ _ _ _ _ _ F)|apply (cf_vault _ _ _ _ _ _ _ _ _ _ _ F)|exact Hk|done]|].
      rewrite (cf_mint_addr _ _ _ _ _ _ _ _ _ _ _ F). apply ls_cancel; apply F.
    + exists s. split; [|constructor].
      eapply payout_stream; [apply (cf_pay _ _ _ _ _ _ _ _ _ _ _ F)|apply (cf_vault _ _ _ _ _ _ _ _ _ _ _ F)|done|done|done].
  - rewrite (wf_evs _ _ _ _ _ _ _ _ _ _ _ _ _ _ _ _ F). cbn. destruct (Z.eqb_spec (wa_stream a) k) as [<-|].
    + assert (s1 = s) as ->. { pose proof (wf_stream _ _ _ _ _ _ _ _ _ _ _ _ _ _ _ _ F). congruence. }
      exists s'. split; [eapply payout_own; [apply (wf_pay _ _ _ _ _ _ _ _ _ _ _ _ _ _ _ _ F)|apply (wf_vault _ _ _ _ _ _ _ _ _ _ _ _ _ _ _ _ F)|exact Hk|done]|].
      rewrite (wf_mint_addr _ _ _ _ _ _ _ _ _ _ _ _ _ _ _ _ F). apply ls_withdraw. exact (wf_new _ _ _ _ _ _ _ _ _ _ _ _ _ _ _ _ F).
    + exists s. split; [|constructor].
      eapply payout_stream; [apply (wf_pay _ _ _ _ _ _ _ _ _ _ _ _ _ _ _ _ F)|apply (wf_vault _ _ _ _ _ _ _ _ _ _ _ _ _ _ _ _ F)|done|done|done].
  - exists s. apply move_lamports_ok in Hmv as (-> & _). split; [done|constructor].
Qed.
Lemma lockup_log_absent E sg ix w w' evs k : lockup_effect E sg w ix w' evs -> (forall s, wdat w !! k <> Some (DStream s)) ->
  (forall s, wdat w' !! k <> Some (DStream s)) -> log_of k evs = [].
Proof.
  intros Heff Hk Hk'.
  destruct Heff as [a f p c tb nb ? F|? a p ct nc cm dm sb s1 nm c0 c1 ? ? Hix Hargs F|a s1 st ? ? Hsg Hse Hs ? ? ? ? -> ->|a m s1 vt dt st ? ? F
    |? a am tr m nt s1 s' vt dt fee wd ? ? Hix Ham F|a tr n ? Hc Htr _ _ _ _ Hmv]; [done| | | | |done].
  - pose proof (create_effects _ _ _ _ _ _ _ _ _ _ _ _ _ _ _ _ F) as Hc. rewrite (rf_evs _ _ _ _ _ _ _ _ _ _ _ _ _ _ _ _ F). cbn.
    destruct (Z.eqb_spec (ca_stream a) k) as [<-|]; [|done]. destruct (Hk' s1). exact (ce_stream _ _ _ _ _ _ _ _ _ Hc).
  - cbn. destruct (Z.eqb_spec (ra_stream a) k) as [<-|]; [|done]. by destruct (Hk s1).
  - rewrite (cf_evs _ _ _ _ _ _ _ _ _ _ _ F). cbn. destruct (Z.eqb_spec (xa_stream a) k) as [<-|]; [|done].
    destruct (Hk s1). exact (cf_stream _ _ _ _ _ _ _ _ _ _ _ F).
  - rewrite (wf_evs _ _ _ _ _ _ _ _ _ _ _ _ _ _ _ _ F). cbn. destruct (Z.eqb_spec (wa_stream a) k) as [<-|]; [|done].
    destruct (Hk s1). exact (wf_stream _ _ _ _ _ _ _ _ _ _ _ _ _ _ _ _ F).
Qed.
Lemma merkle_log E sg ix w w' evs k : merkle_exec E sg ix w = Ok (w', evs) -> log_of k evs = [].
Proof.
  intros Hx. apply merkle_exec_effect in Hx as [_ Heff].
  destruct Heff as [ | a g m b c w' evs Hcr Hm Hp Ha Hc Hv Hne Hva Hcc Hsz Hst Hev | ? ? ? ? ? ? ? ? ? ? ? ? F | ? ? ? ? ? ? ? ? F | ]; try done.
  - by subst evs.
  - by rewrite (lf_evs _ _ _ _ _ _ _ _ _ _ _ _ _ _ _ F).
  - by rewrite (bf_evs _ _ _ _ _ _ _ _ _ _ _ F).
Qed.

Lemma how_many_one f e : how_many f [e] = if f e then 1%nat else 0%nat.
Proof. unfold how_many. cbn. by destruct (f e). Qed.
Lemma sum_of_one f e : sum_of f [e] = f e.
Proof. unfold sum_of. cbn. lia. Qed.
Lemma log_step_matches E k s l ev s' : stream_ok s -> log_matches E k s l -> log_step k s ev s' -> log_matches E k s' (l ++ ev).
Proof.
  intros Hok L Hst. destruct L as [(dec & rec & nft & rest & Hn & Hl) L2 L3 L4 L5 L6 L7 L8].
  assert (forall s2, s_salt s2 = s_salt s -> s_sender s2 = s_sender s -> s_mint s2 = s_mint s ->
    exists d2 r2 n2 rest', nft_mint_of E s2 n2 /\ l ++ ev = EvCreateStream (s_salt s2) d2 (s_mint s2) r2 k n2 :: rest') as HC.
  { intros s2 H1 H2 H3. exists dec, rec, nft, (rest ++ ev). unfold nft_mint_of in *. rewrite H1, H2, H3, Hl. done. }
  destruct Hst as [|nft' Hca|q r nft' Hcn Hca|fee nft' n s' Hw].
  - rewrite app_nil_r. split; try done. by eexists _, _, _, _.
  - split; rewrite ?sum_of_app, ?how_many_app, ?how_many_one, ?sum_of_one; cbn.
    + by apply (HC (stream_renounce s)).
    + lia.
    + lia.
    + lia.
    + lia.
    + discriminate.
    + rewrite (L6 Hca). lia.
    + intros e [?| ->%elem_of_list_singleton]%elem_of_app; [by apply L8|done].
  - split; rewrite ?sum_of_app, ?how_many_app, ?how_many_one, ?sum_of_one; cbn.
    + by apply (HC (stream_cancel s r q)).
    + lia.
    + lia.
    + assert (refunded (s_amounts s) = 0); [|lia].
      pose proof (so_canceled _ Hok) as Hc. pose proof (so_refunded _ Hok). destruct (decide (0 < refunded (s_amounts s))) as [Hp|]; [|lia]. apply Hc in Hp. congruence.
    + rewrite L5, Hcn. done.
    + discriminate.
    + lia.
    + intros e [?| ->%elem_of_list_singleton]%elem_of_app; [by apply L8|done].
  - apply stream_withdraw_ok in Hw as (_ & _ & ->).
    split; rewrite ?sum_of_app, ?how_many_app, ?how_many_one, ?sum_of_one; cbn.
    + match goal with |- exists _ _ _ _, nft_mint_of _ ?x _ /\ _ => by apply (HC x) end.
    + lia.
    + lia.
    + lia.
    + lia.
    + rewrite Nat.add_0_r. destruct (_ <=? _); [done|]. exact L6.
    + lia.
    + intros e [?| ->%elem_of_list_singleton]%elem_of_app; [by apply L8|done].
Qed.
Lemma create_log_matches E sg a p w w' evs ct nc cm dm sb s nm c0 c1 :
  create_facts E sg a p w w' evs ct nc cm dm sb s nm c0 c1 -> log_matches E (ca_stream a) s (log_of (ca_stream a) evs).
Proof.
  intros F. rewrite (rf_evs _ _ _ _ _ _ _ _ _ _ _ _ _ _ _ _ F). pose proof (rf_s _ _ _ _ _ _ _ _ _ _ _ _ _ _ _ _ F) as Hs.
  cbn. rewrite Z.eqb_refl. split; rewrite ?Hs; cbn; try done.
  - eexists _, _, _, []. split; [|done]. exact (rf_nft_mint_addr _ _ _ _ _ _ _ _ _ _ _ _ _ _ _ _ F).
  - lia.
  - intros e ->%elem_of_list_singleton. done.
Qed.

Lemma step_log E C w a evs w' k l : env_ok E -> inv E w -> step E C w a evs w' ->
  match wdat w !! k with Some (DStream s) => log_matches E k s l | _ => l = [] end ->
  match wdat w' !! k with Some (DStream s) => log_matches E k s (l ++ log_of k evs) | _ => l ++ log_of k evs = [] end.
Proof.
  intros HE Hi Hst Hl. pose proof (step_keeps _ _ _ _ _ _ HE (inv_sane _ _ Hi) Hst) as [HL _ _ _].
  assert (forall ev, log_of k ev = [] -> untouched E PLockup w w' ->
    match wdat w' !! k with Some (DStream s) => log_matches E k s (l ++ log_of k ev) | _ => l ++ log_of k ev = [] end) as Hun.
  { intros ev -> Hu. rewrite app_nil_r. destruct (stream_or_not w k) as [[s Hk]|Hno].
    - rewrite (proj1 (untouched_streams E w w' k s Hu) Hk). by rewrite Hk in Hl.
    - assert (l = []) as -> by (destruct (wdat w !! k) as [[]|]; try done; by destruct (Hno s)).
      destruct (wdat w' !! k) as [[]|] eqn:Hk'; try done. apply (untouched_streams E w w') in Hk'; [|done]. by destruct (Hno s). }
  destruct Hst as [sg ix evs w' Hsg Hx|sg ix evs w' Hsg Hx|w' Ho Hc].
  - destruct (lockup_exec_effect _ _ _ _ _ _ Hx) as [_ Heff]. destruct (stream_or_not w k) as [[s Hk]|Hno].
    + rewrite Hk in Hl. pose proof (inv_stream_ok _ _ _ _ Hi Hk) as Hok. destruct (lockup_log _ _ _ _ _ _ _ _ Heff Hk Hok) as (s' & Hk' & Hls).
      rewrite Hk'. by eapply log_step_matches.
    + assert (l = []) as -> by (destruct (wdat w !! k) as [[]|]; try done; by destruct (Hno s)). cbn [app].
      destruct (stream_or_not w' k) as [[s' Hk']|Hno'].
      * rewrite Hk'. destruct (lockup_new_stream _ _ _ _ _ _ _ _ Heff Hk') as [[s0 ?]|(a & p & ct & nc & cm & dm & sb & name & c0 & c1 & _ & _ & F & ->)]; [by destruct (Hno s0)|].
        by eapply create_log_matches.
      * rewrite (lockup_log_absent _ _ _ _ _ _ _ Heff Hno Hno'). destruct (wdat w' !! k) as [[]|]; try done. by destruct (Hno' s).
  - apply Hun; [exact (merkle_log _ _ _ _ _ _ _ Hx)|by apply HL].
  - apply (Hun []); [done|by apply HL].
Qed.

(** The log of every stream matches its account, and an address without a stream has an empty log. *)
Theorem C56_log_tells_streams : forall E tr w k, env_ok E -> history E any_clock tr w ->
  (forall s, wdat w !! k = Some (DStream s) -> log_matches E k s (log_of k (events tr))) /\
  ((forall s, wdat w !! k <> Some (DStream s)) -> log_of k (events tr) = []).
Proof.
  intros E tr w k HE (w00 & Hg & Hr).
  assert (match wdat w !! k with Some (DStream s) => log_matches E k s (log_of k (events tr)) | _ => log_of k (events tr) = [] end) as H.
  { pose proof (genesis_inv _ _ Hg) as Hi. induction Hr as [|tr w1 a evs w2 Hr IH Hs].
    - cbn. destruct (wdat w00 !! k) as [[]|] eqn:Hk; try done. by pose proof (g_data _ _ Hg _ _ Hk).
    - rewrite events_app, events_one, log_of_app. eapply step_log; [done|by eapply run_inv|exact Hs|exact IH]. }
  split.
  - intros s Hk. by rewrite Hk in H.
  - intros Hno. destruct (wdat w !! k) as [[]|]; try done. by destruct (Hno s).
Qed.

(** ** Campaigns *)
(** The events that name campaign [k]. *)
Definition names_campaign (k : key) (e : event) : bool :=
  match e with
  | EvCreateCampaign _ campaign _ _ _ _ _ _ _ _ _ => campaign =? k
  | EvClaim _ campaign _ _ _ _ _ => campaign =? k
  | EvClawback _ campaign _ _ => campaign =? k
  | _ => false
  end.
Definition campaign_log (k : key) (evs : list event) : list event := List.filter (names_campaign k) evs.

(** The log of campaign [k] matches its account [c]. *)
Record campaign_log_matches (k : key) (c : campaign) (l : list event) : Prop := {
  (* it starts with the creation, which names all terms of the campaign *)
  cl_created : exists aggregate count dec rest,
    l = EvCreateCampaign aggregate k (c_name c) (c_start c) (c_creator c) (c_expiration c) (c_ipfs c) (c_root c) count dec (c_mint c) :: rest /\
    (* after which there are only claims, and clawbacks by the creator *)
    forall e, e ∈ rest -> (exists am claimer receipt fee index rec, e = EvClaim am k claimer receipt fee index rec) \/
      (exists am rec, e = EvClawback am k (c_creator c) rec);
  (* a recorded first claim is in the log *)
  cl_first : c_first_claim c <> 0 -> exists am claimer receipt fee index rec, EvClaim am k claimer receipt fee index rec ∈ l }.

Lemma campaign_log_app k l l' : campaign_log k (l ++ l') = campaign_log k l ++ campaign_log k l'.
Proof. apply List.filter_app. Qed.
Lemma lockup_campaign_log E sg ix w w' evs k : lockup_exec E sg ix w = Ok (w', evs) -> campaign_log k evs = [].
Proof.
  intros Hx. apply lockup_exec_effect in Hx as [_ Heff].
  destruct Heff as [a f p c tb nb ? F|? a p ct nc cm dm sb s1 nm c0 c1 ? ? Hix Hargs F|a s1 st ? ? Hsg Hse Hs ? ? ? ? -> ->|a m s1 vt dt st ? ? F
    |? a am tr m nt s1 s' vt dt fee wd ? ? Hix Ham F|a tr n ? Hc Htr _ _ _ _ Hmv]; try done.
  - by rewrite (rf_evs _ _ _ _ _ _ _ _ _ _ _ _ _ _ _ _ F).
  - by rewrite (cf_evs _ _ _ _ _ _ _ _ _ _ _ F).
  - by rewrite (wf_evs _ _ _ _ _ _ _ _ _ _ _ _ _ _ _ _ F).
Qed.
(** What an instruction of Merkle Instant adds to the log of a campaign. *)
Lemma merkle_campaign_log E sg ix w w' evs k l : merkle_effect E sg w ix w' evs ->
  match wdat w !! k with Some (DCampaign c) => campaign_log_matches k c l | _ => l = [] end ->
  match wdat w' !! k with Some (DCampaign c) => campaign_log_matches k c (l ++ campaign_log k evs) | _ => l ++ campaign_log k evs = [] end.
Proof.
  intros Heff Hl.
  assert ((exists c, wdat w !! k = Some (DCampaign c)) \/ forall c, wdat w !! k <> Some (DCampaign c)) as [(c & Hk)|Hno].
  { destruct (wdat w !! k) as [[]|]; try (right; congruence). left. by eexists. }
  - rewrite Hk in Hl. destruct (merkle_campaign _ _ _ _ _ _ _ _ Heff Hk) as (c' & Hk' & Hch). rewrite Hk'.
    destruct Hl as [(ag & ct & dec & rest & -> & Hrest) Hfirst].
    destruct (campaign_change_terms _ _ _ _ _ _ _ _ _ Hch) as (T1 & T2 & T3 & T4 & T5 & T6 & T7 & _).
    assert (exists ev, campaign_log k evs = ev /\
      (forall e, e ∈ ev -> (exists am claimer receipt fee index rec, e = EvClaim am k claimer receipt fee index rec) \/
        (exists am rec, e = EvClawback am k (c_creator c) rec)) /\
      (c_first_claim c' <> 0 -> c_first_claim c <> 0 \/ exists am claimer receipt fee index rec, EvClaim am k claimer receipt fee index rec ∈ ev))
      as (ev & -> & Hev & Hf).
    { destruct Hch as [ix _ Hn1 Hn2|a i am pf tr m vt dt fee ? F _|a am m vt dt ? F _].
      - exists []. split; [|split; [by intros e ?%elem_of_nil|tauto]].
        destruct Heff as [i t1 f p c1 b ? Hi Ht Hn Hne Hd Hr|a g m b c1 ? ? Hi Hm Hmp Hf Hnn1 Hnn2 Hne Hv Hc Hsz Hd ->|a i am pf tr m c1 vt dt fee ? ? F
          |a am m c1 vt dt ? ? F|a tr n ? Hc Htr Hcc Hca Hnn Hnpos Hmv]; try done.
        + cbn. by rewrite (proj2 (Z.eqb_neq (na_campaign a) k)) by congruence.
        + rewrite (lf_evs _ _ _ _ _ _ _ _ _ _ _ _ _ _ _ F). cbn. by rewrite (proj2 (Z.eqb_neq (la_campaign a) k)) by (by eapply Hn1).
        + rewrite (bf_evs _ _ _ _ _ _ _ _ _ _ _ F). cbn. by rewrite (proj2 (Z.eqb_neq (ba_campaign a) k)) by (by eapply Hn2).
      - rewrite (lf_evs _ _ _ _ _ _ _ _ _ _ _ _ _ _ _ F). cbn. subst k. rewrite Z.eqb_refl. eexists. split; [done|]. split.
        + intros e ->%elem_of_list_singleton. left. by do 6 eexists.
        + intros _. right. do 6 eexists. by apply elem_of_list_singleton.
      - rewrite (bf_evs _ _ _ _ _ _ _ _ _ _ _ F). cbn. subst k. rewrite Z.eqb_refl. eexists. split; [done|]. split; [|tauto].
        intros e ->%elem_of_list_singleton. right. exists am, (ba_recipient a). by rewrite (bf_creator _ _ _ _ _ _ _ _ _ _ _ F). }
    split.
    + exists ag, ct, dec, (rest ++ ev). rewrite T1, T2, T3, T4, T5, T6, T7. split; [done|].
      intros e [?|?]%elem_of_app; [by apply Hrest|by apply Hev].
    + intros Hne. destruct (Hf Hne) as [Hc|(am & cl & r & fee & i & rec & Hin)].
      * destruct (Hfirst Hc) as (am & cl & r & fee & i & rec & Hin). exists am, cl, r, fee, i, rec. apply elem_of_app. by left.
      * exists am, cl, r, fee, i, rec. apply elem_of_app. by right.
  - assert (l = []) as -> by (destruct (wdat w !! k) as [[]|]; try done; by edestruct Hno). cbn [app]. clear Hl.
    destruct Heff as [i t1 f p c1 b ? Hi Ht Hn Hne Hd Hr|a g m b c1 ? ? Hi Hm Hmp Hf Hnn1 Hnn2 Hne Hv Hc Hsz Hd ->|a i am pf tr m c1 vt dt fee ? ? F
      |a am m c1 vt dt ? ? F|a tr n ? Hc Htr Hcc Hca Hnn Hnpos Hmv].
    + rewrite (ds_dat _ _ _ Hd). destruct (decide (t1 = k)) as [<-|]; [by rewrite lookup_insert|].
      rewrite lookup_insert_ne by done. cbn. destruct (wdat w !! k) as [[]|]; try done. by edestruct Hno.
    + rewrite (ds_dat _ _ _ Hd). cbn. destruct (Z.eqb_spec (na_campaign a) k) as [<-|].
      * rewrite lookup_insert. rewrite Hc. split; cbn; [|done]. eexists _, _, _, []. split; [done|]. by intros e ?%elem_of_nil.
      * rewrite lookup_insert_ne by done. destruct (decide (na_vault a = k)) as [<-|]; [by rewrite lookup_insert|].
        rewrite lookup_insert_ne by done. destruct (wdat w !! k) as [[]|]; try done. by edestruct Hno.
    + pose proof (lf_campaign _ _ _ _ _ _ _ _ _ _ _ _ _ _ _ F) as Hck. rewrite (lf_evs _ _ _ _ _ _ _ _ _ _ _ _ _ _ _ F). cbn.
      rewrite (proj2 (Z.eqb_neq (la_campaign a) k)) by (intros <-; by edestruct Hno).
      destruct (wdat w' !! k) as [[]|] eqn:Hk'; try done.
      destruct (merkle_new_campaign _ _ _ _ _ _ _ _ (me_claim _ _ _ _ _ _ _ _ _ _ _ _ _ _ _ F) Hk') as [[? ?]|(? & ? & [=] & _)]. by edestruct Hno.
    + pose proof (bf_campaign _ _ _ _ _ _ _ _ _ _ _ F) as Hck. rewrite (bf_evs _ _ _ _ _ _ _ _ _ _ _ F). cbn.
      rewrite (proj2 (Z.eqb_neq (ba_campaign a) k)) by (intros <-; by edestruct Hno).
      destruct (wdat w' !! k) as [[]|] eqn:Hk'; try done.
      destruct (merkle_new_campaign _ _ _ _ _ _ _ _ (me_clawback _ _ _ _ _ _ _ _ _ _ _ F) Hk') as [[? ?]|(? & ? & [=] & _)]. by edestruct Hno.
    + apply move_lamports_ok in Hmv as (-> & _). cbn. destruct (wdat w !! k) as [[]|]; try done. by edestruct Hno.
Qed.
Lemma step_campaign_log E C w a evs w' k l : env_ok E -> inv E w -> step E C w a evs w' ->
  match wdat w !! k with Some (DCampaign c) => campaign_log_matches k c l | _ => l = [] end ->
  match wdat w' !! k with Some (DCampaign c) => campaign_log_matches k c (l ++ campaign_log k evs) | _ => l ++ campaign_log k evs = [] end.
Proof.
  intros HE Hi Hst Hl. pose proof (step_keeps _ _ _ _ _ _ HE (inv_sane _ _ Hi) Hst) as [_ HM _ _].
  assert (forall ev, campaign_log k ev = [] -> untouched E PMerkle w w' ->
    match wdat w' !! k with Some (DCampaign c) => campaign_log_matches k c (l ++ campaign_log k ev) | _ => l ++ campaign_log k ev = [] end) as Hun.
  { intros ev -> Hu. rewrite app_nil_r.
    assert ((exists c, wdat w !! k = Some (DCampaign c)) \/ forall c, wdat w !! k <> Some (DCampaign c)) as [(c & Hk)|Hno].
    { destruct (wdat w !! k) as [[]|]; try (right; congruence). left. by eexists. }
    - rewrite (untouched_campaign _ _ _ _ _ Hu Hk). by rewrite Hk in Hl.
    - assert (l = []) as -> by (destruct (wdat w !! k) as [[]|]; try done; by edestruct Hno).
      destruct (wdat w' !! k) as [[]|] eqn:Hk'; try done. apply (u_new _ _ _ _ Hu) in Hk'; [|done]. by edestruct Hno. }
  destruct Hst as [sg ix evs w' Hsg Hx|sg ix evs w' Hsg Hx|w' Ho Hc].
  - apply Hun; [exact (lockup_campaign_log _ _ _ _ _ _ _ Hx)|by apply HM].
  - destruct (merkle_exec_effect _ _ _ _ _ _ Hx) as [_ Heff]. by eapply merkle_campaign_log.
  - apply (Hun []); [done|by apply HM].
Qed.

(** The log of every campaign matches its account, and an address without a campaign has an empty log. *)
Theorem C56_log_tells_campaigns : forall E tr w k, env_ok E -> history E any_clock tr w ->
  (forall c, campaign_view k w = Ok c -> campaign_log_matches k c (campaign_log k (events tr))) /\
  ((forall c, campaign_view k w <> Ok c) -> campaign_log k (events tr) = []).
Proof.
  intros E tr w k HE (w00 & Hg & Hr).
  assert (match wdat w !! k with Some (DCampaign c) => campaign_log_matches k c (campaign_log k (events tr)) | _ => campaign_log k (events tr) = [] end) as H.
  { pose proof (genesis_inv _ _ Hg) as Hi. induction Hr as [|tr w1 a evs w2 Hr IH Hs].
    - cbn. destruct (wdat w00 !! k) as [[]|] eqn:Hk; try done. by pose proof (g_data _ _ Hg _ _ Hk).
    - rewrite events_app, events_one, campaign_log_app. eapply step_campaign_log; [done|by eapply run_inv|exact Hs|exact IH]. }
  split.
  - intros c Hk%load_campaign_ok. by rewrite Hk in H.
  - intros Hno. destruct (wdat w !! k) as [[]|] eqn:Hk; try done. destruct (Hno c). by apply load_campaign_ok.
Qed.
(** A claim receipt exists at an address exactly when the log has a claim that names it, and no two claims name the same one. *)
Definition claim_receipts (evs : list event) : list key := flat_map (fun e => match e with EvClaim _ _ _ r _ _ _ => [r] | _ => [] end) evs.
Lemma elem_claim_receipts r evs : r ∈ claim_receipts evs <-> exists am k cl fee i rec, EvClaim am k cl r fee i rec ∈ evs.
Proof.
  unfold claim_receipts. rewrite elem_of_list_In, in_flat_map. split.
  - intros (e & He & Hr). destruct e; try done. destruct Hr as [->|[]]. do 6 eexists. apply elem_of_list_In. exact He.
  - intros (am & k & cl & fee & i & rec & He). eexists. split; [apply elem_of_list_In; exact He|]. by left.
Qed.
Lemma claim_receipts_none evs : (forall k, claims_of k evs = []) -> claim_receipts evs = [].
Proof.
  intros H. destruct (claim_receipts evs) as [|r l] eqn:Hr; [done|].
  assert (r ∈ claim_receipts evs) as (am & k & cl & fee & i & rec & Hin)%elem_claim_receipts by (rewrite Hr; by left).
  exfalso. by eapply not_claim_event.
Qed.
Theorem C56_receipts : forall E tr w, env_ok E -> history E any_clock tr w ->
  NoDup (claim_receipts (events tr)) /\ forall r, wdat w !! r = Some DClaimReceipt <-> r ∈ claim_receipts (events tr).
Proof.
  intros E tr w HE Hh. split.
  - destruct Hh as (w0 & Hg & Hr). induction Hr as [|tr w a evs w' Hr IH Hst]; [constructor|].
    assert (receipts_ok E (events tr) w) as R by (eapply history_receipts; [done|by exists w0]).
    rewrite events_app, events_one. unfold claim_receipts. rewrite flat_map_app. fold (claim_receipts (events tr)) (claim_receipts evs).
    destruct Hst as [sg ix evs w' Hsg Hx|sg ix evs w' Hsg Hx|w' Ho Hc].
    + rewrite (claim_receipts_none evs), app_nil_r by (intros k; by apply (lockup_no_claims _ _ _ _ _ _ k Hx)). exact IH.
    + destruct (merkle_claims _ _ _ _ _ _ Hx) as [(ac & i & am & pf & tr' & m & c & vt & dt & fee & -> & F & _)|[_ Hn]].
      * rewrite (lf_evs _ _ _ _ _ _ _ _ _ _ _ _ _ _ _ F). cbn. apply NoDup_app. split; [exact IH|]. split; [|apply NoDup_singleton].
        intros r (am' & k' & cl' & fee' & i' & rec' & Hin)%elem_claim_receipts ->%elem_of_list_singleton.
        destruct (ro_event _ _ _ R _ _ _ _ _ _ _ Hin) as (_ & Hr' & _).
        discriminate (eq_trans (eq_sym Hr') (lf_receipt _ _ _ _ _ _ _ _ _ _ _ _ _ _ _ F)).
      * rewrite (claim_receipts_none evs Hn), app_nil_r. exact IH.
    + cbn. rewrite app_nil_r. exact IH.
  - pose proof (history_receipts _ _ _ _ HE Hh) as R. intros r. rewrite elem_claim_receipts. split.
    + apply (ro_receipt _ _ _ R).
    + intros (am & k & cl & fee & i & rec & Hin). by apply (ro_event _ _ _ R) in Hin as (_ & ? & _).
Qed.

(** ** Example: stream 1 of the sample history is created, paid from, canceled and emptied; the campaign has two claims and a clawback. *)
Example C56_example :
  map (fun e => (is_create_event e, is_cancel_event e, withdraw_amount e, refund_amount e)) (log_of (kStream kSender 1) (events tr7)) =
    [(true, false, 0, 0); (false, false, 150, 0); (false, true, 0, 425); (false, false, 425, 0)] /\
  match wdat w7 !! kStream kSender 1 with
  | Some (DStream s) => withdrawn (s_amounts s) = 575 /\ refunded (s_amounts s) = 425 /\ s_canceled s = true
  | _ => False
  end /\
  length (campaign_log (na_campaign (camp_accs 1500 0)) (events tr7)) = 4%nat /\
  length (claim_receipts (events tr7)) = 2%nat.
Proof. split; [vm_compute; reflexivity|]. split; [vm_compute; done|]. split; vm_compute; reflexivity. Qed.

Print Assumptions C56_log_tells_streams.
Print Assumptions C56_log_tells_campaigns.
Print Assumptions C56_receipts.
