(** Two more invariants: addresses stored in token accounts are 32-byte keys, and whatever sits at an
    address derived by one of the two programs was put there by it. *)
From Verif Require Export MerkleInv Seeds.

(** ** Keys in token accounts *)
Lemma payout_keys E w D own newd vault dest vt dt amount tp mintk owner auth w' :
  payout_facts E w D own newd vault dest vt dt amount tp mintk owner auth w' ->
  wdat w !! vault = Some (DToken vt) -> is_token newd = false ->
  (forall k t, D !! k = Some (DToken t) -> wdat w !! k = Some (DToken t)) ->
  key_ok mintk -> key_ok owner -> keys_sane w -> keys_sane w'.
Proof.
  intros F Hv Hn HD Hm Ho Hs k t. rewrite (ds_dat _ _ _ (pf_step _ _ _ _ _ _ _ _ _ _ _ _ _ _ _ F)). unfold payout.
  case_decide.
  - intros [[_ ->]|[_ Hk]]%lookup_insert_Some; [done|]. exact (Hs _ _ (HD _ _ Hk)).
  - intros [[_ [= <-]]|[_ Hk]]%lookup_insert_Some.
    { simpl. rewrite (pf_dest_mint _ _ _ _ _ _ _ _ _ _ _ _ _ _ _ F), (pf_dest_owner _ _ _ _ _ _ _ _ _ _ _ _ _ _ _ F). done. }
    apply lookup_insert_Some in Hk as [[_ [= <-]]|[_ Hk]]; [exact (Hs _ _ Hv)|].
    apply lookup_insert_Some in Hk as [[_ ->]|[_ Hk]]; [done|]. exact (Hs _ _ (HD _ _ Hk)).
Qed.

Lemma lockup_keys E sg ix w w' evs : env_ok E -> lockup_ix_ok ix = true -> lockup_effect E sg w ix w' evs -> keys_sane w -> keys_sane w'.
Proof.
  intros HE Hok Heff Hs.
  destruct Heff as [a f p c tb nb ? F|? a p ct nc cm dm sb s1 nm c0 c1 ? ? Hixx Hargs F|a s1 st ? ? Hsi Hse Hs1 ? ? ? ? -> ->|a m s1 vt dt st ? ? F
      |? a am tr m nt s1 s' vt dt fee wd ? ? Hixx Ham F|a tr n' ? Hc Htr' ? ? -> ? Hmv].
  - intros k t. rewrite (ds_dat _ _ _ (if_step _ _ _ _ _ _ _ _ _ _ F)). intros Hk.
    repeat (apply lookup_insert_Some in Hk as [[_ Heq]|[_ Hk]]; [try discriminate; injection Heq as <-; simpl in *; ranges; done|]).
    exact (Hs _ _ Hk).
  - assert (create_accs_ok a = true) as Ha.
    { destruct Hixx as [->|(q & -> & _)]; simpl in Hok; by apply andb_prop in Hok as [[Hok _]%andb_prop _]. }
    unfold create_accs_ok in Ha. ranges.
    pose proof (rf_coll_md_kind _ _ _ _ _ _ _ _ _ _ _ _ _ _ _ _ F) as (? & ? & ? & ? & ? & ? & Hc0 & Hc1).
    pose proof (rf_creator_ata _ _ _ _ _ _ _ _ _ _ _ _ _ _ _ _ F) as Hct.
    pose proof (Hs _ _ Hct) as [? ?]. subst c1.
    assert (key_ok (ca_stream a) /\ key_ok (ca_nft_mint a) /\ key_ok (ca_deposit_mint a) /\ key_ok (ca_recipient a)) as (? & ? & ? & ?)
      by (split_and!; done).
    intros k t. rewrite (ds_dat _ _ _ (rf_step _ _ _ _ _ _ _ _ _ _ _ _ _ _ _ _ F)). unfold create_map. intros Hk.
    repeat (apply lookup_insert_Some in Hk as [[_ Heq]|[_ Hk]]; [try discriminate; injection Heq as <-; simpl in *; done|]).
    exact (Hs _ _ Hk).
  - intros k t. rewrite wdat_set_dat. intros [[_ ?]|[_ Hk]]%lookup_insert_Some; [done|]. exact (Hs _ _ Hk).
  - simpl in Hok. ranges.
    eapply payout_keys; [apply (cf_pay _ _ _ _ _ _ _ _ _ _ _ F)|apply (cf_vault _ _ _ _ _ _ _ _ _ _ _ F)|done|done|done|done|done].
  - assert (withdraw_accs_ok a = true) as Ha.
    { destruct Hixx as [->|[-> _]]; simpl in Hok; [by apply andb_prop in Hok as [Hok _]|done]. }
    unfold withdraw_accs_ok in Ha. ranges.
    eapply payout_keys; [apply (wf_pay _ _ _ _ _ _ _ _ _ _ _ _ _ _ _ _ F)|apply (wf_vault _ _ _ _ _ _ _ _ _ _ _ _ _ _ _ _ F)|done|done|done|done|done].
  - apply move_lamports_ok in Hmv as (Hd & _). intros k t. rewrite Hd. apply Hs.
Qed.

Lemma merkle_keys E sg ix w w' evs : env_ok E -> merkle_ix_ok ix = true -> merkle_effect E sg w ix w' evs -> keys_sane w -> keys_sane w'.
Proof.
  intros HE Hok Heff Hs.
  destruct Heff as [ i t f p c b w' ? ? ? ? Hst ? | a g m b c w' evs Hcr Hm Hp Ha Hc Hv Hne Hva Hcc Hsz Hst Hev
    | a i am pf tr m c vt dt fee w' evs F | a am m c vt dt w' evs F | a tr n w' Hc Htr Hcc Hca Hn Hpos Hmv ].
  - intros k t'. rewrite (ds_dat _ _ _ Hst). intros [[_ ?]|[_ Hk]]%lookup_insert_Some; [done|]. exact (Hs _ _ Hk).
  - simpl in Hok. ranges. intros k t. rewrite (ds_dat _ _ _ Hst).
    intros [[_ ?]|[_ Hk]]%lookup_insert_Some; [done|].
    apply lookup_insert_Some in Hk as [[_ [= <-]]|[_ Hk]]; [simpl; done|]. exact (Hs _ _ Hk).
  - simpl in Hok. ranges.
    eapply payout_keys; [apply (lf_pay _ _ _ _ _ _ _ _ _ _ _ _ _ _ _ F)|apply (lf_vault _ _ _ _ _ _ _ _ _ _ _ _ _ _ _ F)|done| |done|done|done].
    intros k t [[_ ?]|[_ Hk]]%lookup_insert_Some; done.
  - simpl in Hok. ranges.
    eapply payout_keys; [apply (bf_pay _ _ _ _ _ _ _ _ _ _ _ F)|apply (bf_vault _ _ _ _ _ _ _ _ _ _ _ F)|done|done|done|done|done].
  - apply move_lamports_ok in Hmv as (Hd & _). intros k t. rewrite Hd. apply Hs.
Qed.

Lemma step_keys E C w a evs w' : env_ok E -> step E C w a evs w' -> keys_sane w -> keys_sane w'.
Proof.
  intros HE Hst Hs. destruct Hst as [sg ix evs w' Hsg Hx|sg ix evs w' Hsg Hx|w' Ho Hc].
  - apply lockup_exec_effect in Hx as [Hok Heff]. exact (lockup_keys _ _ _ _ _ _ HE Hok Heff Hs).
  - apply merkle_exec_effect in Hx as [Hok Heff]. exact (merkle_keys _ _ _ _ _ _ HE Hok Heff Hs).
  - apply (os_keys _ _ _ Ho).
Qed.
Lemma run_keys E C w0 tr w : env_ok E -> run E C w0 tr w -> keys_sane w0 -> keys_sane w.
Proof. intros HE Hr H0. induction Hr as [|tr w a evs w' Hr IH Hst]; [done|]. by eapply step_keys. Qed.
Lemma reachable_keys E w : env_ok E -> reachable E w -> keys_sane w.
Proof. intros HE (tr & w0 & Hg & Hr). eapply run_keys; [done|exact Hr|apply Hg]. Qed.

(** ** Where associated token accounts come from *)
(** Token accounts that an instruction creates are associated token accounts of their owners. *)
Definition known_or_ata (E : env) (w : world) (k : key) (t : tokacc) : Prop :=
  (exists t0, wdat w !! k = Some (DToken t0)) \/ ata_address E (t_owner t) (t_mint t) (t_prog t) = Ok k.
Lemma payout_ata E w D own newd vault dest vt dt amount tp mintk owner auth w' :
  payout_facts E w D own newd vault dest vt dt amount tp mintk owner auth w' ->
  wdat w !! vault = Some (DToken vt) -> is_token newd = false ->
  (forall k t, D !! k = Some (DToken t) -> wdat w !! k = Some (DToken t)) ->
  forall k t, wdat w' !! k = Some (DToken t) -> known_or_ata E w k t.
Proof.
  intros F Hv Hn HD k t. rewrite (ds_dat _ _ _ (pf_step _ _ _ _ _ _ _ _ _ _ _ _ _ _ _ F)). unfold payout.
  destruct (decide (vault = dest)) as [Hvd|Hvd].
  - intros [[_ ->]|[_ Hk]]%lookup_insert_Some; [discriminate|]. left. exists t. exact (HD _ _ Hk).
  - intros [[<- [= <-]]|[_ Hk]]%lookup_insert_Some.
    { right. cbn [t_owner t_mint t_prog with_amount]. rewrite (pf_dest_mint _ _ _ _ _ _ _ _ _ _ _ _ _ _ _ F),
        (pf_dest_owner _ _ _ _ _ _ _ _ _ _ _ _ _ _ _ F), (pf_dest_prog _ _ _ _ _ _ _ _ _ _ _ _ _ _ _ F).
      exact (pf_dest_addr _ _ _ _ _ _ _ _ _ _ _ _ _ _ _ F). }
    apply lookup_insert_Some in Hk as [[<- [= <-]]|[_ Hk]]; [left; exists vt; exact Hv|].
    apply lookup_insert_Some in Hk as [[_ ->]|[_ Hk]]; [discriminate|]. left. exists t. exact (HD _ _ Hk).
Qed.

Lemma lockup_ata E sg ix w w' evs : lockup_effect E sg w ix w' evs ->
  forall k t, wdat w' !! k = Some (DToken t) -> known_or_ata E w k t.
Proof.
  intros Heff.
  destruct Heff as [a f p c tb nb ? F|? a p ct nc cm dm sb s1 nm c0 c1 ? ? Hixx Hargs F|a s1 st ? ? Hsi Hse Hs1 ? ? ? ? -> ->|a m s1 vt dt st ? ? F
      |? a am tr m nt s1 s' vt dt fee wd ? ? Hixx Ham F|a tr n' ? Hc Htr' ? ? -> ? Hmv].
  - intros k t. rewrite (ds_dat _ _ _ (if_step _ _ _ _ _ _ _ _ _ _ F)). intros Hk.
    apply lookup_insert_Some in Hk as [[_ Heq]|[_ Hk]]; [discriminate|].
    apply lookup_insert_Some in Hk as [[_ Heq]|[_ Hk]]; [discriminate|].
    apply lookup_insert_Some in Hk as [[<- [= <-]]|[_ Hk]]; [right; exact (if_ata_addr _ _ _ _ _ _ _ _ _ _ F)|].
    repeat (apply lookup_insert_Some in Hk as [[_ Heq]|[_ Hk]]; [discriminate|]).
    left. exists t. exact Hk.
  - pose proof (rf_coll_md_kind _ _ _ _ _ _ _ _ _ _ _ _ _ _ _ _ F) as (? & ? & ? & ? & ? & ? & Hc0 & Hc1). subst c1.
    intros k t. rewrite (ds_dat _ _ _ (rf_step _ _ _ _ _ _ _ _ _ _ _ _ _ _ _ _ F)). unfold create_map. intros Hk.
    apply lookup_insert_Some in Hk as [[<- [= <-]]|[_ Hk]]; [right; exact (rf_vault_addr _ _ _ _ _ _ _ _ _ _ _ _ _ _ _ _ F)|].
    apply lookup_insert_Some in Hk as [[<- [= <-]]|[_ Hk]]; [left; exists ct; exact (rf_creator_ata _ _ _ _ _ _ _ _ _ _ _ _ _ _ _ _ F)|].
    do 5 (apply lookup_insert_Some in Hk as [[_ Heq]|[_ Hk]]; [discriminate|]).
    apply lookup_insert_Some in Hk as [[<- [= <-]]|[_ Hk]]; [right; exact (rf_nft_ata_addr _ _ _ _ _ _ _ _ _ _ _ _ _ _ _ _ F)|].
    apply lookup_insert_Some in Hk as [[_ Heq]|[_ Hk]]; [discriminate|]. left. exists t. exact Hk.
  - intros k t. rewrite wdat_set_dat. intros [[_ ?]|[_ Hk]]%lookup_insert_Some; [discriminate|]. left. exists t. exact Hk.
  - eapply payout_ata; [apply (cf_pay _ _ _ _ _ _ _ _ _ _ _ F)|apply (cf_vault _ _ _ _ _ _ _ _ _ _ _ F)|reflexivity|]. intros k t Hk; exact Hk.
  - eapply payout_ata; [apply (wf_pay _ _ _ _ _ _ _ _ _ _ _ _ _ _ _ _ F)|apply (wf_vault _ _ _ _ _ _ _ _ _ _ _ _ _ _ _ _ F)|reflexivity|].
    intros k t Hk; exact Hk.
  - apply move_lamports_ok in Hmv as (Hd & _). intros k t. rewrite Hd. intros Hk. left. exists t. exact Hk.
Qed.

Lemma merkle_ata E sg ix w w' evs : merkle_effect E sg w ix w' evs ->
  forall k t, wdat w' !! k = Some (DToken t) -> known_or_ata E w k t.
Proof.
  intros Heff.
  destruct Heff as [ i t f p c b w' ? ? ? ? Hst ? | a g m b c w' evs Hcr Hm Hp Ha Hc Hv Hne Hva Hcc Hsz Hst Hev
    | a i am pf tr m c vt dt fee w' evs F | a am m c vt dt w' evs F | a tr n w' Hc Htr Hcc Hca Hn Hpos Hmv ].
  - intros k t'. rewrite (ds_dat _ _ _ Hst). intros [[_ ?]|[_ Hk]]%lookup_insert_Some; [discriminate|]. left. exists t'. exact Hk.
  - intros k t. rewrite (ds_dat _ _ _ Hst).
    intros [[_ ?]|[_ Hk]]%lookup_insert_Some; [discriminate|].
    apply lookup_insert_Some in Hk as [[<- [= <-]]|[_ Hk]]; [right; exact Hva|]. left. exists t. exact Hk.
  - eapply payout_ata; [apply (lf_pay _ _ _ _ _ _ _ _ _ _ _ _ _ _ _ F)|apply (lf_vault _ _ _ _ _ _ _ _ _ _ _ _ _ _ _ F)|reflexivity|].
    intros k t [[_ ?]|[_ Hk]]%lookup_insert_Some; [discriminate|exact Hk].
  - eapply payout_ata; [apply (bf_pay _ _ _ _ _ _ _ _ _ _ _ F)|apply (bf_vault _ _ _ _ _ _ _ _ _ _ _ F)|reflexivity|]. intros k t Hk; exact Hk.
  - apply move_lamports_ok in Hmv as (Hd & _). intros k t. rewrite Hd. intros Hk. left. exists t. exact Hk.
Qed.


Lemma step_ata E C w a evs w' : env_ok E -> step E C w a evs w' -> ata_kept E w w'.
Proof.
  intros HE Hst. destruct Hst as [sg ix evs w' Hsg Hx|sg ix evs w' Hsg Hx|w' Ho Hc].
  - destruct (lockup_frame _ _ _ _ _ _ HE Hsg Hx) as (S & F & _). apply lockup_exec_effect in Hx as [_ Heff].
    intros k t Hk _. destruct (lockup_ata _ _ _ _ _ _ Heff _ _ Hk) as [(t0 & H0)|H0]; [left|right; exact H0].
    destruct (fr_tokens _ _ _ _ _ F _ _ H0) as (t' & Hk' & (H1 & H2 & _) & _). rewrite Hk in Hk'. injection Hk' as <-. exists t0. done.
  - destruct (merkle_frame _ _ _ _ _ _ HE Hsg Hx) as (S & F & _). apply merkle_exec_effect in Hx as [_ Heff].
    intros k t Hk _. destruct (merkle_ata _ _ _ _ _ _ Heff _ _ Hk) as [(t0 & H0)|H0]; [left|right; exact H0].
    destruct (fr_tokens _ _ _ _ _ F _ _ H0) as (t' & Hk' & (H1 & H2 & _) & _). rewrite Hk in Hk'. injection Hk' as <-. exists t0. done.
  - apply (os_ata _ _ _ Ho).
Qed.
(** An account at an associated address was, in some earlier world or this one, the associated account of its owner then. *)
Definition made_for (E : env) (ws : list world) (k : key) (t : tokacc) (o : key) : Prop :=
  exists w1 t1, w1 ∈ ws /\ wdat w1 !! k = Some (DToken t1) /\ t_owner t1 = o /\ t_mint t1 = t_mint t /\ t_prog t1 = t_prog t /\
    ata_address E o (t_mint t) (t_prog t) = Ok k.
Lemma passed_run E C w0 tr ws w : passed E C w0 tr ws w -> run E C w0 tr w.
Proof. intros Hp. induction Hp as [|tr ws w a evs w' Hp IH Hst]; [constructor|exact (run_snoc _ _ _ _ _ _ _ _ IH Hst)]. Qed.
Lemma run_passed E C w0 tr w : run E C w0 tr w -> exists ws, passed E C w0 tr ws w.
Proof.
  intros Hp. induction Hp as [|tr w a evs w' Hp [ws IH] Hst]; [exists [w0]; constructor|]. exists (ws ++ [w']). exact (passed_snoc _ _ _ _ _ _ _ _ _ IH Hst).
Qed.
Lemma via_history E C tr ws w : history_via E C tr ws w -> history E C tr w.
Proof. intros (w0 & Hg & Hp). exists w0. split; [exact Hg|exact (passed_run _ _ _ _ _ _ Hp)]. Qed.
Lemma history_is_via E C tr w : history E C tr w -> exists ws, history_via E C tr ws w.
Proof. intros (w0 & Hg & Hr). destruct (run_passed _ _ _ _ _ Hr) as [ws Hp]. exists ws, w0. split; [exact Hg|exact Hp]. Qed.
Lemma passed_last E C w0 tr ws w : passed E C w0 tr ws w -> w ∈ ws.
Proof. intros Hp. destruct Hp; [by apply elem_of_list_singleton|]. apply elem_of_app. right. by apply elem_of_list_singleton. Qed.
Lemma via_last E C tr ws w : history_via E C tr ws w -> w ∈ ws.
Proof. intros (w0 & _ & Hp). destruct Hp; [by apply elem_of_list_singleton|]. apply elem_of_app. right. by apply elem_of_list_singleton. Qed.
Lemma made_for_app E ws ws' k t o : made_for E ws k t o -> made_for E (ws ++ ws') k t o.
Proof. intros (w1 & t1 & H1 & H2). exists w1, t1. split; [apply elem_of_app; left; exact H1|exact H2]. Qed.
Lemma via_made_for E C tr ws w k t : env_ok E -> history_via E C tr ws w -> wdat w !! k = Some (DToken t) -> pda_of E PAssocToken k = true ->
  exists o, made_for E ws k t o.
Proof.
  intros HE (w0 & Hg & Hp) Hk Hpa. revert t Hk. induction Hp as [|tr ws w a evs w' Hp IH Hst]; intros t Hk.
  - exists (t_owner t), w0, t. split; [by apply elem_of_list_singleton|]. split; [exact Hk|]. split; [done|]. split; [done|]. split; [done|].
    exact (g_ata _ _ Hg _ _ Hk Hpa).
  - destruct (step_ata _ _ _ _ _ _ HE Hst _ _ Hk Hpa) as [(t0 & H0 & Hm & Hpr)|H0].
    + destruct (IH _ H0) as (o & Ho). exists o. apply made_for_app. destruct Ho as (w1 & t1 & A & B & X & D & F & G).
      exists w1, t1. split; [exact A|]. split; [exact B|]. split; [exact X|]. rewrite <- Hm, <- Hpr. split; [exact D|]. split; [exact F|exact G].
    + exists (t_owner t), w', t. split; [apply elem_of_app; right; by apply elem_of_list_singleton|]. split; [exact Hk|]. do 3 (split; [done|]). exact H0.
Qed.

Lemma via_keys E C tr ws w w1 : env_ok E -> history_via E C tr ws w -> w1 ∈ ws -> keys_sane w1.
Proof.
  intros HE (w0 & Hg & Hp). induction Hp as [|tr ws w a evs w' Hp IH Hst].
  - intros ->%elem_of_list_singleton. apply Hg.
  - intros [Hin| ->%elem_of_list_singleton]%elem_of_app; [by apply IH|]. eapply run_keys; [done| |apply Hg].
    exact (run_snoc _ _ _ _ _ _ _ _ (passed_run _ _ _ _ _ _ Hp) Hst).
Qed.
Lemma made_for_key E C tr ws w k t o : env_ok E -> history_via E C tr ws w -> made_for E ws k t o -> key_ok o.
Proof. intros HE Hv (w1 & t1 & Hin & Hk & <- & _). apply (via_keys _ _ _ _ _ _ HE Hv Hin _ _ Hk). Qed.

Lemma made_for_mono E ws ws' k t o : (forall w, w ∈ ws -> w ∈ ws') -> made_for E ws k t o -> made_for E ws' k t o.
Proof. intros Hi (w1 & t1 & H1 & H2). exists w1, t1. split; [exact (Hi _ H1)|exact H2]. Qed.
Lemma via_app E C tr ws w tr' ws' w' : history_via E C tr ws w -> passed E C w tr' ws' w' ->
  history_via E C (tr ++ tr') (ws ++ tail ws') w' /\ ws' <> [].
Proof.
  intros (w0 & Hg & Hp) Hp'. induction Hp' as [|tr' ws' w1 a evs w2 Hp' IH Hst].
  - rewrite !app_nil_r. split; [exists w0; split; [exact Hg|exact Hp]|done].
  - destruct IH as [(w0' & Hg' & IH) Hne]. split; [|by destruct ws'].
    exists w0'. split; [exact Hg'|]. destruct ws' as [|x ws']; [done|]. cbn [tail app] in *. rewrite (app_assoc tr), (app_assoc ws).
    exact (passed_snoc _ _ _ _ _ _ _ _ _ IH Hst).
Qed.

(** ** What sits at derived addresses *)

(** The account at [k], if derived by Lockup, is the treasury, one of the two collection accounts, a stream, or
    the NFT mint of an existing stream. *)
Definition lockup_known (E : env) (w : world) (k : key) : Prop :=
  (exists b, find_program_address E PLockup [s_TREASURY] = Ok (k, b)) \/
  (exists b, find_program_address E PLockup [s_NFT_COLLECTION_DATA] = Ok (k, b)) \/
  (exists b, find_program_address E PLockup [s_NFT_COLLECTION_MINT] = Ok (k, b)) \/
  (exists s, wdat w !! k = Some (DStream s)) \/
  (exists ks s b, wdat w !! ks = Some (DStream s) /\ find_program_address E PLockup (nft_mint_seeds (s_sender s) (s_salt s)) = Ok (k, b)).
Definition lockup_pdas (E : env) (w : world) : Prop :=
  forall k, pda_of E PLockup k = true -> wdat w !! k <> None -> lockup_known E w k.
(** The account at [k], if derived by Merkle Instant, belongs to Merkle Instant. *)
Definition merkle_pdas (E : env) (w : world) : Prop :=
  forall k d, pda_of E PMerkle k = true -> wdat w !! k = Some d -> owner_prog d = Some PMerkle.

Lemma lockup_known_keep E w w' k : lockup_known E w k ->
  (forall k s, wdat w !! k = Some (DStream s) -> exists s', wdat w' !! k = Some (DStream s') /\ same_terms s s') -> lockup_known E w' k.
Proof.
  intros [H|[H|[H|[(s & Hk)|(ks & s & b & Hk & Hf)]]]] Hkeep.
  - left. exact H.
  - right; left. exact H.
  - right; right; left. exact H.
  - destruct (Hkeep _ _ Hk) as (s' & ? & _). right; right; right; left. by exists s'.
  - destruct (Hkeep _ _ Hk) as (s' & ? & T1 & _ & T2 & _). right; right; right; right. exists ks, s', b. rewrite T1, T2. split; [assumption|exact Hf].
Qed.

Lemma step_streams_keep E C w a evs w' : env_ok E -> token_sane E w -> step E C w a evs w' ->
  forall k s, wdat w !! k = Some (DStream s) -> exists s', wdat w' !! k = Some (DStream s') /\ same_terms s s'.
Proof.
  intros HE Hts Hst k s Hk. pose proof (step_keeps _ _ _ _ _ _ HE Hts Hst) as [Hl Hm Hse Ht].
  destruct Hst as [sg ix evs w' Hsg Hx|sg ix evs w' Hsg Hx|w' Ho Hc].
  - apply lockup_exec_effect in Hx as [_ Heff]. destruct (lockup_stream _ _ _ _ _ _ _ _ Heff Hk) as (s' & Hk' & Hch).
    exists s'. split; [done|]. by eapply stream_change_terms.
  - exists s. split; [|done]. by apply (untouched_streams E w w'); [apply Hl|].
  - exists s. split; [|done]. by apply (untouched_streams E w w'); [apply Hl|].
Qed.

(** New data at a Lockup-derived address. *)
Lemma payout_none E w D own d0 newd vault dest vt dt amount tp mintk owner auth w' k :
  payout_facts E w D own newd vault dest vt dt amount tp mintk owner auth w' ->
  wdat w !! vault = Some (DToken vt) -> wdat w !! own = Some d0 ->
  wdat w !! k = None -> k <> dest -> wdat w' !! k = D !! k.
Proof.
  intros F Hv Ho Hk Hd. rewrite (ds_dat _ _ _ (pf_step _ _ _ _ _ _ _ _ _ _ _ _ _ _ _ F)).
  apply payout_lookup_other; congruence.
Qed.

Lemma step_lockup_pdas E C w a evs w' : env_ok E -> token_sane E w -> lockup_pdas E w -> step E C w a evs w' -> lockup_pdas E w'.
Proof.
  intros HE Hts Hp Hst k Hk Hsome. pose proof (step_streams_keep _ _ _ _ _ _ HE Hts Hst) as Hkeep.
  destruct (wdat w !! k) as [d|] eqn:Hw.
  { apply (lockup_known_keep E w); [|done]. apply Hp; [done|congruence]. }
  pose proof (step_keeps _ _ _ _ _ _ HE Hts Hst) as [Hl Hm Hse Ht].
  destruct Hst as [sg ix evs w' Hsg Hx|sg ix evs w' Hsg Hx|w' Ho Hc].
  - apply lockup_exec_effect in Hx as [Hok Heff].
    assert (forall o m tp x, ata_address E o m tp = Ok x -> k <> x) as Hata.
    { intros o m tp x Hax ->. apply ata_pda in Hax as [Hax _]; [|done]. pose proof (eo_disjoint _ HE _ _ _ Hk Hax). done. }
    assert (forall s x b, find_program_address E PMetadata s = Ok (x, b) -> k <> x) as Hmd.
    { intros s x b Hax ->. apply fpa_pda in Hax as [Hax _]; [|done]. pose proof (eo_disjoint _ HE _ _ _ Hk Hax). done. }
    destruct Heff as [a f p c tb nb ? F|? a p ct nc cm dm sb s1 nm c0 c1 ? ? Hixx Hargs F|a s1 st ? ? Hsi Hse' Hs1 ? ? ? ? -> ->|a m s1 vt dt st ? ? F
      |? a am tr m nt s1 s' vt dt fee wd ? ? Hixx Ham F|a tr n' ? Hc Htr' ? ? -> ? Hmv].
    + destruct F. rewrite (ds_dat _ _ _ if_step) in Hsome.
      destruct if_metadata_addr as [mb Hmb], if_edition_addr as [eb Heb], if_mint_addr as [ib Hib].
      destruct (decide (k = ia_treasury a)) as [->|N1]; [left; exists tb; exact if_treasury_addr|].
      destruct (decide (k = ia_nft_collection_data a)) as [->|N2]; [right; left; exists nb; exact if_nc_addr|].
      destruct (decide (k = ia_mint a)) as [->|N3]; [right; right; left; exists ib; exact Hib|].
      rewrite lookup_insert_ne in Hsome by (exact (not_eq_sym (Hmd _ _ _ Hmb))).
      rewrite lookup_insert_ne in Hsome by (exact (not_eq_sym (Hmd _ _ _ Heb))).
      rewrite lookup_insert_ne in Hsome by (exact (not_eq_sym (Hata _ _ _ _ if_ata_addr))).
      rewrite lookup_insert_ne in Hsome by done. rewrite lookup_insert_ne in Hsome by done.
      rewrite lookup_insert_ne in Hsome by done. congruence.
    + pose proof (create_effects _ _ _ _ _ _ _ _ _ _ _ _ _ _ _ _ F) as Hce.
      destruct (decide (k = ca_stream a)) as [->|N1].
      { right; right; right; left. exists s1. apply (ce_stream _ _ _ _ _ _ _ _ _ Hce). }
      destruct (decide (k = ca_nft_mint a)) as [->|N2].
      { right; right; right; right. destruct (rf_nft_mint_addr _ _ _ _ _ _ _ _ _ _ _ _ _ _ _ _ F) as [b Hb].
        exists (ca_stream a), s1, b. split; [apply (ce_stream _ _ _ _ _ _ _ _ _ Hce)|].
        rewrite (rf_s _ _ _ _ _ _ _ _ _ _ _ _ _ _ _ _ F). exact Hb. }
      destruct Hsome. rewrite (ce_other _ _ _ _ _ _ _ _ _ Hce); [done|].
      destruct (rf_metadata_addr _ _ _ _ _ _ _ _ _ _ _ _ _ _ _ _ F) as [mb Hmb].
      destruct (rf_edition_addr _ _ _ _ _ _ _ _ _ _ _ _ _ _ _ _ F) as [eb Heb].
      pose proof (rf_creator_ata _ _ _ _ _ _ _ _ _ _ _ _ _ _ _ _ F).
      pose proof (rf_nc _ _ _ _ _ _ _ _ _ _ _ _ _ _ _ _ F). pose proof (rf_coll_md _ _ _ _ _ _ _ _ _ _ _ _ _ _ _ _ F).
      rewrite !not_elem_of_cons. split_and!; try congruence.
      * exact (Hata _ _ _ _ (rf_nft_ata_addr _ _ _ _ _ _ _ _ _ _ _ _ _ _ _ _ F)).
      * exact (Hata _ _ _ _ (rf_vault_addr _ _ _ _ _ _ _ _ _ _ _ _ _ _ _ _ F)).
      * exact (Hmd _ _ _ Hmb).
      * exact (Hmd _ _ _ Heb).
      * apply not_elem_of_nil.
    + rewrite wdat_set_dat, lookup_insert_ne in Hsome by congruence. done.
    + destruct F. pose proof (pf_dest_addr _ _ _ _ _ _ _ _ _ _ _ _ _ _ _ cf_pay) as Hda.
      rewrite (payout_none _ _ _ _ _ _ _ _ _ _ _ _ _ _ _ _ _ cf_pay cf_vault cf_stream Hw (Hata _ _ _ _ Hda)) in Hsome. done.
    + destruct F. pose proof (pf_dest_addr _ _ _ _ _ _ _ _ _ _ _ _ _ _ _ wf_pay) as Hda.
      rewrite (payout_none _ _ _ _ _ _ _ _ _ _ _ _ _ _ _ _ _ wf_pay wf_vault wf_stream Hw (Hata _ _ _ _ Hda)) in Hsome. done.
    + apply move_lamports_ok in Hmv as (Hd & _). rewrite Hd in Hsome. done.
  - destruct Hsome. apply (u_pda _ _ _ _ (Hl eq_refl)); done.
  - destruct Hsome. apply (u_pda _ _ _ _ (Hl eq_refl)); done.
Qed.

Lemma step_merkle_pdas E C w a evs w' : env_ok E -> token_sane E w -> merkle_pdas E w -> step E C w a evs w' -> merkle_pdas E w'.
Proof.
  intros HE Hts Hp Hst k d' Hk Hd'.
  pose proof (step_keeps _ _ _ _ _ _ HE Hts Hst) as [Hl Hm Hse Ht].
  assert (forall w'', untouched E PMerkle w w'' -> wdat w'' !! k = Some d' -> owner_prog d' = Some PMerkle) as Hunt.
  { intros w'' Hu Hd''. destruct (wdat w !! k) as [d|] eqn:Hw.
    - pose proof (Hp _ _ Hk Hw) as Hown. destruct (u_data _ _ _ _ Hu _ _ Hw Hown) as [Hd2 _]. congruence.
    - rewrite (u_pda _ _ _ _ Hu _ Hk Hw) in Hd''. done. }
  destruct Hst as [sg ix evs w' Hsg Hx|sg ix evs w' Hsg Hx|w' Ho Hc].
  - exact (Hunt _ (Hm eq_refl) Hd').
  - apply merkle_exec_effect in Hx as [Hok Heff].
    assert (forall o m tp x, ata_address E o m tp = Ok x -> k <> x) as Hata.
    { intros o m tp x Hax ->. apply ata_pda in Hax as [Hax _]; [|done]. pose proof (eo_disjoint _ HE _ _ _ Hk Hax). done. }
    destruct Heff as [ i t f p c b w' ? ? ? ? Hst ? | a g m b c w' evs Hcr Hmm Hpp Ha Hc Hv Hne Hva Hcc Hsz Hst Hev
    | a i am pf tr m c vt dt fee w' evs F | a am m c vt dt w' evs F | a tr n w' Hc Htr Hcc Hca Hn Hpos Hmv ].
    + rewrite (ds_dat _ _ _ Hst) in Hd'. apply lookup_insert_Some in Hd' as [[_ <-]|[_ Hd']]; [done|]. exact (Hp _ _ Hk Hd').
    + rewrite (ds_dat _ _ _ Hst) in Hd'. apply lookup_insert_Some in Hd' as [[_ <-]|[_ Hd']]; [done|].
      rewrite lookup_insert_ne in Hd' by (exact (not_eq_sym (Hata _ _ _ _ Hva))). exact (Hp _ _ Hk Hd').
    + destruct F. pose proof (pf_dest_addr _ _ _ _ _ _ _ _ _ _ _ _ _ _ _ lf_pay) as Hda.
      rewrite (ds_dat _ _ _ (pf_step _ _ _ _ _ _ _ _ _ _ _ _ _ _ _ lf_pay)) in Hd'.
      destruct (decide (k = la_campaign a)) as [->|Hnc].
      { assert (la_campaign a <> la_vault a) by congruence. rewrite payout_lookup_own in Hd' by (done || exact (Hata _ _ _ _ Hda)).
        by injection Hd' as <-. }
      rewrite payout_lookup_other in Hd' by (done || exact (Hata _ _ _ _ Hda) || exact (Hata _ _ _ _ lf_vault_addr)).
      apply lookup_insert_Some in Hd' as [[_ <-]|[_ Hd']]; [done|]. exact (Hp _ _ Hk Hd').
    + destruct F. pose proof (pf_dest_addr _ _ _ _ _ _ _ _ _ _ _ _ _ _ _ bf_pay) as Hda.
      rewrite (ds_dat _ _ _ (pf_step _ _ _ _ _ _ _ _ _ _ _ _ _ _ _ bf_pay)) in Hd'.
      destruct (decide (k = ba_campaign a)) as [->|Hnc].
      { assert (ba_campaign a <> ba_vault a) by congruence. rewrite payout_lookup_own in Hd' by (done || exact (Hata _ _ _ _ Hda)).
        by injection Hd' as <-. }
      rewrite payout_lookup_other in Hd' by (done || exact (Hata _ _ _ _ Hda) || exact (Hata _ _ _ _ bf_vault_addr)).
      exact (Hp _ _ Hk Hd').
    + apply move_lamports_ok in Hmv as (Hd & _). rewrite Hd in Hd'. exact (Hp _ _ Hk Hd').
  - exact (Hunt _ (Hm eq_refl) Hd').
Qed.

Lemma run_pdas E C w0 tr w : env_ok E -> token_sane E w0 -> run E C w0 tr w -> lockup_pdas E w0 /\ merkle_pdas E w0 ->
  lockup_pdas E w /\ merkle_pdas E w.
Proof.
  intros HE H0 Hr Hp. induction Hr as [|tr w a evs w' Hr [IH1 IH2] Hst]; [done|].
  pose proof (run_sane _ _ _ _ _ HE H0 Hr) as Hs. split; [by eapply step_lockup_pdas|by eapply step_merkle_pdas].
Qed.
Lemma reachable_pdas E w : env_ok E -> reachable E w -> lockup_pdas E w /\ merkle_pdas E w.
Proof.
  intros HE (tr & w0 & Hg & Hr). eapply run_pdas; [done|apply Hg|exact Hr|].
  split; intros k.
  - intros Hk Hn. destruct Hn. apply (g_pda _ _ Hg). by left.
  - intros d Hk Hd. rewrite (g_pda _ _ Hg) in Hd by (by right). done.
Qed.
