(** C74: transactions. *)
From Verif Require Export Transaction.

(** ** Births: which accounts an instruction brings into being *)
Lemma lockup_born E sg ix w w' evs k : lockup_effect E sg w ix w' evs -> wdat w !! k = None -> wdat w' !! k <> None -> k ∈ (creates E (IL ix)).*1.
Proof.
  intros Heff Hn Hs. destruct (wdat w' !! k) as [d|] eqn:Hk; [clear Hs|done].
  destruct Heff as [a f p c tb nb ? F|ix a p ct nc cm dm sb s1 nm c0 c1 ? ? Hix Hargs F|a s1 st ? ? Hsi Hse Hst ? ? ? ? -> ->|a m s1 vt dt st ? ? F
      |? a am tr m nt s1 s' vt dt fee wd ? ? Hix Ham F|a tr n' ? Hc Htr ? ? -> ? Hmv].
  - rewrite (ds_dat _ _ _ (if_step _ _ _ _ _ _ _ _ _ _ F)) in Hk. cbn [creates opens metadata_made app fmap list_fmap fst].
    repeat (apply lookup_insert_Some in Hk as [[<- _]|[_ Hk]]; [set_solver|]). congruence.
  - rewrite (ds_dat _ _ _ (rf_step _ _ _ _ _ _ _ _ _ _ _ _ _ _ _ _ F)) in Hk. unfold create_map in Hk.
    assert ((creates E (IL ix)).*1 = [ca_nft_mint a; ca_recipient_nft_ata a; ca_stream a; ca_vault a; ca_edition a; ca_metadata a]) as ->
      by (destruct Hix as [->|(q & -> & _)]; reflexivity).
    apply lookup_insert_Some in Hk as [[<- _]|[_ Hk]]; [set_solver|].
    apply lookup_insert_Some in Hk as [[<- _]|[_ Hk]]; [rewrite (rf_creator_ata _ _ _ _ _ _ _ _ _ _ _ _ _ _ _ _ F) in Hn; discriminate|].
    apply lookup_insert_Some in Hk as [[<- _]|[_ Hk]]; [rewrite (rf_nc _ _ _ _ _ _ _ _ _ _ _ _ _ _ _ _ F) in Hn; discriminate|].
    apply lookup_insert_Some in Hk as [[<- _]|[_ Hk]]; [rewrite (rf_coll_md _ _ _ _ _ _ _ _ _ _ _ _ _ _ _ _ F) in Hn; discriminate|].
    repeat (apply lookup_insert_Some in Hk as [[<- _]|[_ Hk]]; [set_solver|]). congruence.
  - rewrite wdat_set_dat in Hk. apply lookup_insert_Some in Hk as [[<- _]|[_ Hk]]; congruence.
  - pose proof (cf_pay _ _ _ _ _ _ _ _ _ _ _ F) as P. rewrite (ds_dat _ _ _ (pf_step _ _ _ _ _ _ _ _ _ _ _ _ _ _ _ P)) in Hk. unfold payout in Hk.
    pose proof (cf_stream _ _ _ _ _ _ _ _ _ _ _ F). pose proof (cf_vault _ _ _ _ _ _ _ _ _ _ _ F). cbn [creates opens metadata_made app fmap list_fmap fst].
    destruct (decide _); repeat (apply lookup_insert_Some in Hk as [[<- _]|[_ Hk]]; [first [set_solver|congruence]|]); congruence.
  - pose proof (wf_pay _ _ _ _ _ _ _ _ _ _ _ _ _ _ _ _ F) as P. rewrite (ds_dat _ _ _ (pf_step _ _ _ _ _ _ _ _ _ _ _ _ _ _ _ P)) in Hk. unfold payout in Hk.
    pose proof (wf_stream _ _ _ _ _ _ _ _ _ _ _ _ _ _ _ _ F). pose proof (wf_vault _ _ _ _ _ _ _ _ _ _ _ _ _ _ _ _ F).
    assert ((creates E (IL ix)).*1 = [wa_dest a]) as -> by (destruct Hix as [->|[-> _]]; reflexivity).
    destruct (decide _); repeat (apply lookup_insert_Some in Hk as [[<- _]|[_ Hk]]; [first [set_solver|congruence]|]); congruence.
  - apply move_lamports_ok in Hmv as (Hd & _). rewrite Hd in Hk. congruence.
Qed.
Lemma merkle_born E sg ix w w' evs k : merkle_effect E sg w ix w' evs -> wdat w !! k = None -> wdat w' !! k <> None -> k ∈ (creates E (IM ix)).*1.
Proof.
  intros Heff Hn Hs. destruct (wdat w' !! k) as [d|] eqn:Hk; [clear Hs|done].
  destruct Heff as [i t1 f p c1 b ? Hi Hti Hn0 Hne Hd Hr|a g m b c1 ? ? Hi Hm Hmp Hf Hn1 Hn2 Hne Hv Hc Hsz Hd ->|a i am pf tr m c1 vt dt fee ? ? F
    |a am m c1 vt dt ? ? F|a tr n ? Hc Htr Hcc Hca -> Hnpos Hmv].
  - rewrite (ds_dat _ _ _ Hd) in Hk. apply lookup_insert_Some in Hk as [[<- _]|[_ Hk]]; [cbn; set_solver|congruence].
  - rewrite (ds_dat _ _ _ Hd) in Hk. cbn [creates opens metadata_made app fmap list_fmap fst].
    repeat (apply lookup_insert_Some in Hk as [[<- _]|[_ Hk]]; [set_solver|]). congruence.
  - pose proof (lf_pay _ _ _ _ _ _ _ _ _ _ _ _ _ _ _ F) as P. rewrite (ds_dat _ _ _ (pf_step _ _ _ _ _ _ _ _ _ _ _ _ _ _ _ P)) in Hk. unfold payout in Hk.
    pose proof (lf_campaign _ _ _ _ _ _ _ _ _ _ _ _ _ _ _ F). pose proof (lf_vault _ _ _ _ _ _ _ _ _ _ _ _ _ _ _ F). cbn [creates opens metadata_made app fmap list_fmap fst].
    destruct (decide _); repeat (apply lookup_insert_Some in Hk as [[<- _]|[_ Hk]]; [first [set_solver|congruence]|]); congruence.
  - pose proof (bf_pay _ _ _ _ _ _ _ _ _ _ _ F) as P. rewrite (ds_dat _ _ _ (pf_step _ _ _ _ _ _ _ _ _ _ _ _ _ _ _ P)) in Hk. unfold payout in Hk.
    pose proof (bf_campaign _ _ _ _ _ _ _ _ _ _ _ F). pose proof (bf_vault _ _ _ _ _ _ _ _ _ _ _ F). cbn [creates opens metadata_made app fmap list_fmap fst].
    destruct (decide _); repeat (apply lookup_insert_Some in Hk as [[<- _]|[_ Hk]]; [first [set_solver|congruence]|]); congruence.
  - apply move_lamports_ok in Hmv as (Hd & _). rewrite Hd in Hk. congruence.
Qed.
(** ... and all of them; none disappears. *)
Lemma lockup_made E sg ix w w' evs k : lockup_effect E sg w ix w' evs -> wdat w' !! k = None -> wdat w !! k = None /\ k ∉ (creates E (IL ix)).*1.
Proof.
  intros Heff Hk.
  destruct Heff as [a f p c tb nb ? F|ix a p ct nc cm dm sb s1 nm c0 c1 ? ? Hix Hargs F|a s1 st ? ? Hsi Hse Hst ? ? ? ? -> ->|a m s1 vt dt st ? ? F
      |? a am tr m nt s1 s' vt dt fee wd ? ? Hix Ham F|a tr n' ? Hc Htr ? ? -> ? Hmv].
  - rewrite (ds_dat _ _ _ (if_step _ _ _ _ _ _ _ _ _ _ F)) in Hk. rewrite !lookup_insert_None in Hk. cbn. destruct_and!. split; [assumption|set_solver].
  - rewrite (ds_dat _ _ _ (rf_step _ _ _ _ _ _ _ _ _ _ _ _ _ _ _ _ F)) in Hk. unfold create_map in Hk. rewrite !lookup_insert_None in Hk.
    assert ((creates E (IL ix)).*1 = [ca_nft_mint a; ca_recipient_nft_ata a; ca_stream a; ca_vault a; ca_edition a; ca_metadata a]) as ->
      by (destruct Hix as [->|(q & -> & _)]; reflexivity). destruct_and!. split; [assumption|set_solver].
  - rewrite wdat_set_dat in Hk. rewrite lookup_insert_None in Hk. split; [tauto|cbn; set_solver].
  - pose proof (cf_pay _ _ _ _ _ _ _ _ _ _ _ F) as P. rewrite (ds_dat _ _ _ (pf_step _ _ _ _ _ _ _ _ _ _ _ _ _ _ _ P)) in Hk. unfold payout in Hk.
    pose proof (cf_vault _ _ _ _ _ _ _ _ _ _ _ F) as Hv. cbn [creates opens metadata_made app fmap list_fmap fst].
    destruct (decide _) as [He|He]; rewrite !lookup_insert_None in Hk; destruct_and!; (split; [assumption|]).
    + intros ->%elem_of_list_singleton. rewrite <- He in *. congruence.
    + set_solver.
  - pose proof (wf_pay _ _ _ _ _ _ _ _ _ _ _ _ _ _ _ _ F) as P. rewrite (ds_dat _ _ _ (pf_step _ _ _ _ _ _ _ _ _ _ _ _ _ _ _ P)) in Hk. unfold payout in Hk.
    pose proof (wf_vault _ _ _ _ _ _ _ _ _ _ _ _ _ _ _ _ F) as Hv.
    assert ((creates E (IL ix)).*1 = [wa_dest a]) as -> by (destruct Hix as [->|[-> _]]; reflexivity).
    destruct (decide _) as [He|He]; rewrite !lookup_insert_None in Hk; destruct_and!; (split; [assumption|]).
    + intros ->%elem_of_list_singleton. rewrite <- He in *. congruence.
    + set_solver.
  - apply move_lamports_ok in Hmv as (Hd & _). rewrite Hd in Hk. split; [exact Hk|cbn; set_solver].
Qed.
Lemma merkle_made E sg ix w w' evs k : merkle_effect E sg w ix w' evs -> wdat w' !! k = None -> wdat w !! k = None /\ k ∉ (creates E (IM ix)).*1.
Proof.
  intros Heff Hk.
  destruct Heff as [i t1 f p c1 b ? Hi Hti Hn0 Hne Hd Hr|a g m b c1 ? ? Hi Hm Hmp Hf Hn1 Hn2 Hne Hv Hc Hsz Hd ->|a i am pf tr m c1 vt dt fee ? ? F
    |a am m c1 vt dt ? ? F|a tr n ? Hc Htr Hcc Hca -> Hnpos Hmv].
  - rewrite (ds_dat _ _ _ Hd) in Hk. rewrite lookup_insert_None in Hk. split; [tauto|cbn; set_solver].
  - rewrite (ds_dat _ _ _ Hd) in Hk. rewrite !lookup_insert_None in Hk. split; [tauto|cbn; set_solver].
  - pose proof (lf_pay _ _ _ _ _ _ _ _ _ _ _ _ _ _ _ F) as P. rewrite (ds_dat _ _ _ (pf_step _ _ _ _ _ _ _ _ _ _ _ _ _ _ _ P)) in Hk. unfold payout in Hk.
    pose proof (lf_vault _ _ _ _ _ _ _ _ _ _ _ _ _ _ _ F) as Hv. cbn [creates opens metadata_made app fmap list_fmap fst].
    destruct (decide _) as [He|He]; rewrite !lookup_insert_None in Hk; destruct_and!; (split; [assumption|]).
    + intros [Hx|Hx]%elem_of_cons; [rewrite Hx in *; rewrite <- He in *; congruence|set_solver].
    + set_solver.
  - pose proof (bf_pay _ _ _ _ _ _ _ _ _ _ _ F) as P. rewrite (ds_dat _ _ _ (pf_step _ _ _ _ _ _ _ _ _ _ _ _ _ _ _ P)) in Hk. unfold payout in Hk.
    pose proof (bf_vault _ _ _ _ _ _ _ _ _ _ _ F) as Hv. cbn [creates opens metadata_made app fmap list_fmap fst].
    destruct (decide _) as [He|He]; rewrite !lookup_insert_None in Hk; destruct_and!; (split; [assumption|]).
    + intros ->%elem_of_list_singleton. rewrite <- He in *. congruence.
    + set_solver.
  - apply move_lamports_ok in Hmv as (Hd & _). rewrite Hd in Hk. split; [exact Hk|cbn; set_solver].
Qed.
Lemma exec_made E sg i w w' evs k : exec E sg i w = Ok (w', evs) -> wdat w' !! k = None -> wdat w !! k = None /\ k ∉ (creates E i).*1.
Proof.
  destruct i as [ix|ix]; cbn [exec]; intros Hx; [apply lockup_exec_effect in Hx as [_ Hx]; exact (lockup_made _ _ _ _ _ _ _ Hx)
    |apply merkle_exec_effect in Hx as [_ Hx]; exact (merkle_made _ _ _ _ _ _ _ Hx)].
Qed.
Lemma exec_born E sg i w w' evs k : exec E sg i w = Ok (w', evs) -> wdat w !! k = None -> wdat w' !! k <> None -> k ∈ (creates E i).*1.
Proof.
  destruct i as [ix|ix]; cbn [exec]; intros Hx; [apply lockup_exec_effect in Hx as [_ Hx]; exact (lockup_born _ _ _ _ _ _ _ Hx)
    |apply merkle_exec_effect in Hx as [_ Hx]; exact (merkle_born _ _ _ _ _ _ _ Hx)].
Qed.
Lemma creates_nodup E sg i w w' evs : exec E sg i w = Ok (w', evs) -> NoDup (creates E i).*1.
Proof.
  destruct i as [ix|ix]; cbn [exec]; intros Hx.
  - apply lockup_exec_effect in Hx as [_ Heff].
    destruct Heff as [a f p c tb nb ? F|ix a p ct nc cm dm sb s1 nm c0 c1 ? ? Hix Hargs F|a s1 st ? ? Hsi Hse Hst ? ? ? ? -> ->|a m s1 vt dt st ? ? F
      |? a am tr m nt s1 s' vt dt fee wd ? ? Hix Ham F|a tr n' ? Hc Htr ? ? -> ? Hmv].
    + pose proof (if_distinct _ _ _ _ _ _ _ _ _ _ F) as Hd. cbn. eapply NoDup_Permutation_proper; [|exact Hd].
      do 4 (apply perm_skip). apply perm_swap.
    + pose proof (create_neq _ _ _ _ _ _ _ _ _ _ _ _ _ _ _ _ F) as Hd.
      assert ((creates E (IL ix)).*1 = [ca_nft_mint a; ca_recipient_nft_ata a; ca_stream a; ca_vault a; ca_edition a; ca_metadata a]) as ->
        by (destruct Hix as [->|(q & -> & _)]; reflexivity).
      eapply NoDup_Permutation_proper; [|exact (proj1 (proj1 (NoDup_app [ca_nft_mint a; ca_recipient_nft_ata a; ca_stream a; ca_vault a; ca_metadata a; ca_edition a] _) Hd))].
      do 4 (apply perm_skip). apply perm_swap.
    + apply NoDup_nil_2.
    + apply NoDup_singleton.
    + destruct Hix as [->|[-> _]]; apply NoDup_singleton.
    + apply NoDup_nil_2.
  - apply merkle_exec_effect in Hx as [_ Heff].
    destruct Heff as [i t1 f p c1 b ? Hi Hti Hn0 Hne Hd Hr|a g m b c1 ? ? Hi Hm Hmp Hf Hn1 Hn2 Hne Hv Hc Hsz Hd ->|a i am pf tr m c1 vt dt fee ? ? F
      |a am m c1 vt dt ? ? F|a tr n ? Hc Htr Hcc Hca -> Hnpos Hmv].
    + apply NoDup_singleton.
    + cbn. apply NoDup_cons. split; [|apply NoDup_singleton]. intros H%elem_of_list_singleton. exact (Hne H).
    + cbn. apply NoDup_cons. split; [|apply NoDup_singleton]. intros H%elem_of_list_singleton. exact (lf_receipt_dest _ _ _ _ _ _ _ _ _ _ _ _ _ _ _ F (eq_sym H)).
    + apply NoDup_singleton.
    + apply NoDup_nil_2.
Qed.
Lemma creates_writable E i k : k ∈ (creates E i).*1 -> k ∈ writable_of i.
Proof. destruct i as [[]|[]]; cbn; set_solver. Qed.

(** Lengths. *)
Lemma grow_some w l n k : wdat w !! k <> None -> grow w l n !! k = n !! k.
Proof.
  intros Hk. induction l as [|[j s] l IH]; [done|]. cbn [grow foldr]. fold (grow w l n). case_bool_decide as Hj; [|exact IH].
  rewrite lookup_insert_ne; [exact IH|congruence].
Qed.
Lemma grow_not w l n k : k ∉ l.*1 -> grow w l n !! k = n !! k.
Proof.
  induction l as [|[j s] l IH]; [done|]. intros Hk. cbn in Hk. apply not_elem_of_cons in Hk as [Hj Hk]. cbn [grow foldr]. fold (grow w l n).
  case_bool_decide; [|exact (IH Hk)]. rewrite lookup_insert_ne; [exact (IH Hk)|congruence].
Qed.
Lemma grow_new w l n k s : NoDup l.*1 -> (k, s) ∈ l -> wdat w !! k = None -> grow w l n !! k = Some s.
Proof.
  induction l as [|[j r] l IH]; intros Hd Hin Hk; [by apply elem_of_nil in Hin|]. cbn in Hd. apply NoDup_cons in Hd as [Hj Hd].
  cbn [grow foldr]. fold (grow w l n). apply elem_of_cons in Hin as [Hin|Hin].
  - injection Hin as <- <-. rewrite bool_decide_true by exact Hk. apply lookup_insert.
  - assert (j <> k) as Hne by (intros ->; apply Hj, elem_of_list_fmap; by exists (k, s)).
    case_bool_decide; [rewrite lookup_insert_ne by exact Hne|]; exact (IH Hd Hin Hk).
Qed.

(** ** The machine's accounts stay in order *)
Definition kind_at (w : world) (k : key) : option (program * Z * Z) := wdat w !! k ≫= owned.
Lemma kind_put k o c j : kind_at (on c) k = None -> o ≫= owned = None -> kind_at (on (put k o c)) j = kind_at (on c) j.
Proof.
  intros H1 H2. unfold kind_at in *. cbn [put on]. destruct (decide (j = k)) as [->|Hne].
  - rewrite wput_same, H1. exact H2.
  - by rewrite wput_other.
Qed.
Lemma kind_none w k d : wdat w !! k = Some d -> owned d = None -> kind_at w k = None.
Proof. unfold kind_at. by intros ->. Qed.
Lemma kind_fresh w k : wdat w !! k = None -> kind_at w k = None.
Proof. unfold kind_at. by intros ->. Qed.
Lemma load_token_kind w k t : load_token w k = Ok t -> kind_at w k = None.
Proof. unfold load_token, kind_at. destruct (wdat w !! k) as [[]|]; try discriminate; done. Qed.
Lemma load_mint_kind w k t : load_mint w k = Ok t -> kind_at w k = None.
Proof. unfold load_mint, kind_at. destruct (wdat w !! k) as [[]|]; try discriminate; done. Qed.
Lemma foreign_kind o : foreign o = true -> o ≫= owned = None. Proof. destruct o as [[]|]; done. Qed.
Lemma metaplex_kind o : metaplex o = true -> o ≫= owned = None. Proof. destruct o as [[]|]; done. Qed.

(** No operation of another program makes, unmakes or changes the kind of an account of the two programs. *)
Lemma outside_kind E native sg o c c' : outside E native sg o c = Ok c' -> forall k, kind_at (on c') k = kind_at (on c) k.
Proof.
  intros H j. destruct o; cbn [outside] in H; inv_all H; bools;
    try (match goal with H : bool_decide (wdat _ !! _ = None) = true |- _ => apply bool_decide_eq_true in H; apply kind_fresh in H end);
    repeat match goal with
    | H : load_token _ _ = Ok _ |- _ => apply load_token_kind in H
    | H : load_mint _ _ = Ok _ |- _ => apply load_mint_kind in H
    | H : foreign _ = true |- _ => apply foreign_kind in H
    | H : metaplex _ = true |- _ => apply metaplex_kind in H
    end;
    try match goal with H : (if ?b then _ else _) = Ok _ |- _ => destruct b; inv_all H; bools end;
    try (match goal with H : Ok _ = Ok c' |- _ => injection H as <- end);
    try reflexivity;
    try (apply kind_put; [assumption|first [reflexivity|assumption]]).
  all: repeat match goal with H : wdat _ !! _ = None |- _ => apply kind_fresh in H end.
  all: repeat (rewrite kind_put; [|repeat (rewrite kind_put; [|assumption|reflexivity]); cbn [put_side on]; assumption|reflexivity]).
  all: reflexivity.
Qed.
Lemma outside_ops_kind E native sg ops c c' : outside_ops E native sg ops c = Ok c' -> forall k, kind_at (on c') k = kind_at (on c) k.
Proof.
  revert c. induction ops as [|o ops IH]; intros c H k; [by injection H as <-|].
  assert (exists c1, outside E native sg o c = Ok c1 /\ outside_ops E native sg ops c1 = Ok c') as (c1 & H1 & H2).
  { destruct o; try (cbn [outside_ops] in H; apply rbind_ok in H as (c1 & H1 & H2); exists c1; split; [exact H1|exact H2]). discriminate H. }
  rewrite (IH _ H2). exact (outside_kind _ _ _ _ _ _ H1 k).
Qed.

Lemma our_step_ok E sg i m m' evs : our_step E sg i m = Ok (m', evs) ->
  exists w', exec E sg i (world_of m) = Ok (w', evs) /\ m' = Machine (Chain w' (sides (ch m))) (grow (world_of m) (creates E i) (lens m)).
Proof. unfold our_step. intros H. apply rbind_ok in H as ([w' e] & H1 & H2). injection H2 as <- <-. by exists w'. Qed.
Lemma outsiders_signers E sg : outsiders E sg -> signers_ok E sg.
Proof. intros H k Hk. destruct (H k Hk) as [Hd _]. unfold derived in Hd. rewrite !orb_false_iff in Hd. tauto. Qed.

(** Sizes are right: those of the programs' accounts as documented, no data no length. *)
Record sized (m : machine) : Prop := {
  sz_ours : forall k d p n s, wdat (world_of m) !! k = Some d -> owned d = Some (p, n, s) -> len_of m k = s;
  sz_none : forall k, wdat (world_of m) !! k = None -> len_of m k = 0 }.
Lemma sized_ours E sg i m m' evs : our_step E sg i m = Ok (m', evs) -> sized m -> sized m'.
Proof.
  intros Hx [S1 S2]. apply our_step_ok in Hx as (w' & Hx & ->). pose proof (creates_nodup _ _ _ _ _ _ Hx) as Hd. split.
  - intros k d p n s Hk Ho. unfold world_of, len_of in *. cbn [ch on lens] in *.
    assert ((exists d0, wdat (on (ch m)) !! k = Some d0 /\ owned d0 = Some (p, n, s)) \/ (wdat (on (ch m)) !! k = None /\ (k, s) ∈ creates E i)) as [(d0 & H1 & H2)|[H1 H2]].
    { destruct i as [ix|ix]; cbn [exec] in Hx; [apply lockup_exec_effect in Hx as [_ Hx]; destruct (lockup_back _ _ _ _ _ _ _ _ _ Hx Hk Ho) as [?|[? ?]]; [by left|right; split; [done|apply elem_of_app; by left]]
        |apply merkle_exec_effect in Hx as [_ Hx]; destruct (merkle_back _ _ _ _ _ _ _ _ _ Hx Hk Ho) as [?|[? ?]]; [by left|right; split; [done|apply elem_of_app; by left]]]. }
    + rewrite grow_some by congruence. exact (S1 _ _ _ _ _ H1 H2).
    + by rewrite (grow_new _ _ _ _ _ Hd H2 H1).
  - intros k Hk. unfold world_of, len_of in *. cbn [ch on lens] in *.
    assert (wdat (on (ch m)) !! k = None /\ k ∉ (creates E i).*1) as [H1 H2]; [|rewrite grow_not by exact H2; exact (S2 _ H1)].
    exact (exec_made _ _ _ _ _ _ _ Hx Hk).
Qed.
Lemma sized_item E native t m x evs m' : item_step E native t m x evs m' -> sized m -> sized m'.
Proof.
  intros Hs. destruct Hs as [extra i evs m' Hsg Hw Hx|extra ops new c' Hsg Ho Hn Hz]; [exact (sized_ours _ _ _ _ _ _ Hx)|].
  intros [S1 S2]. split; [|intros k; exact (proj2 (Hz k))]. intros k d p n s Hk Hd. unfold world_of, len_of in *. cbn [ch on lens] in *.
  assert (kind_at (on c') k = Some (p, n, s)) as Hkd by (unfold kind_at; rewrite Hk; exact Hd).
  rewrite (outside_ops_kind _ _ _ _ _ _ Ho) in Hkd. unfold kind_at in Hkd. destruct (wdat (on (ch m)) !! k) as [d0|] eqn:H0; [|discriminate Hkd].
  cbn in Hkd. rewrite (Hn k d0 H0) by congruence. exact (S1 _ _ _ _ _ H0 Hkd).
Qed.
Lemma sized_items E native t m xs evs m' : items_run E native t m xs evs m' -> sized m -> sized m'.
Proof. intros H. induction H as [|m x xs e1 e2 m1 m2 H1 H2 H3 IH]; [done|]. intros Hs. exact (IH (sized_item _ _ _ _ _ _ _ H1 Hs)). Qed.
(** Lengths are not negative. *)
Definition long (m : machine) : Prop := forall k, 0 <= len_of m k.
Lemma creates_long E i k s : (forall m, 0 <= ext_space E m) -> (k, s) ∈ creates E i -> 0 <= s.
Proof.
  intros Hx Hin. assert (forall m tp, 0 <= token_size E m tp) as Ht.
  { intros m tp. unfold token_size. specialize (Hx m). destruct tp; [lia|]. destruct (plain E m); lia. }
  assert (Forall (fun x => 0 <= snd x) (creates E i)) as Hf by (destruct i as [[]|[]]; cbn [creates opens metadata_made app]; repeat constructor; cbn [snd]; try apply Ht; lia).
  rewrite Forall_forall in Hf. exact (Hf _ Hin).
Qed.
Lemma grow_long w l n : (forall k s, (k, s) ∈ l -> 0 <= s) -> (forall k, 0 <= default 0 (n !! k)) -> forall k, 0 <= default 0 (grow w l n !! k).
Proof.
  intros Hl Hn k. induction l as [|[j s] l IH]; [exact (Hn k)|]. cbn [grow foldr]. fold (grow w l n).
  assert (0 <= default 0 (grow w l n !! k)) as Hk by (apply IH; intros k' s' Hin; apply (Hl k'); by right). case_bool_decide; [|exact Hk].
  destruct (decide (j = k)) as [->|Hne]; [rewrite lookup_insert; apply (Hl k); left|rewrite lookup_insert_ne by exact Hne; exact Hk].
Qed.
Lemma long_ours E sg i m m' evs : (forall m, 0 <= ext_space E m) -> our_step E sg i m = Ok (m', evs) -> long m -> long m'.
Proof.
  intros Hx H Hm. apply our_step_ok in H as (w' & _ & ->). intros k. unfold len_of. cbn [lens]. apply grow_long; [|exact Hm].
  intros j s. exact (creates_long _ _ _ _ Hx).
Qed.
Lemma long_items E native t m xs evs m' : (forall m, 0 <= ext_space E m) -> items_run E native t m xs evs m' -> long m -> long m'.
Proof.
  intros Hx H. induction H as [|m x xs e1 e2 m1 m2 H1 H2 H3 IH]; [done|]. intros Hs. apply IH. clear - Hx H1 Hs.
  destruct H1 as [extra i evs m' Hsg Hw H|extra ops new c' Hsg Ho Hn Hz]; [exact (long_ours _ _ _ _ _ _ Hx H Hs)|]. intros k. exact (proj1 (Hz k)).
Qed.
Lemma long_mstep E native m evs m' : (forall m, 0 <= ext_space E m) -> mstep E native m evs m' -> long m -> long m'.
Proof.
  intros Hx [t evs' m2 [Hd|Hf Hn|evs2 m3 Hf [Hc _ _]]|t|k n H0 Ht Hr] Hm; [exact Hm|exact Hm| |exact Hm|exact Hm].
  exact (long_items _ _ _ _ _ _ _ Hx Hc Hm).
Qed.
Lemma long_mrun E native l t evs m : (forall m, 0 <= ext_space E m) -> mrun E native (start l t) evs m -> long m.
Proof.
  intros Hx Hr. induction Hr as [|evs m es m' Hr IH Hst]; [|exact (long_mstep _ _ _ _ _ Hx Hst IH)].
  intros k. unfold len_of, start. cbn [lens]. rewrite lookup_empty. cbn. lia.
Qed.
Lemma items_checked E native t m xs evs m' : items_run E native t m xs evs m' -> lamports_ok (world_of m) -> checked native t m m'.
Proof.
  intros H. induction H as [m|m x xs e1 e2 m1 m2 H1 [C1 C2 C3] H3 IH]; intros H0; [split; [done|done|exact H0]|].
  destruct (IH C3) as [D1 D2 D3]. split; [|by rewrite D2, C2|exact D3].
  intros k Hk. destruct (C1 k Hk) as (A1 & A2 & A3 & A4), (D1 k Hk) as (B1 & B2 & B3 & B4). split_and!; congruence.
Qed.

(** In order: the ledger fits, the sizes are right, what has no lamports has no data, and what has lamports has enough. *)
Definition exempt (E : env) (m : machine) (k : key) : Prop := lam (world_of m) k = 0 \/ rent_min E (len_of m k) <= lam (world_of m) k.
Record in_order (E : env) (native : key) (m : machine) : Prop := {
  io_ledger : lamports_ok (world_of m);
  io_supply : all_lamports native (world_of m) <= U64_MAX;
  io_sized : sized m;
  io_alive : forall k, lam (world_of m) k = 0 -> wdat (world_of m) !! k = None;
  io_exempt : forall k, exempt E m k }.
Lemma exempt_state E m k : exempt E m k <-> (forall s l, state_of E m k <> RentPaying s l).
Proof.
  unfold exempt, state_of. destruct (Z.eqb_spec (lam (world_of m) k) 0) as [H|H]; [split; [done|by left]|].
  destruct (Z.leb_spec (rent_min E (len_of m k)) (lam (world_of m) k)) as [H1|H1]; [split; [done|by right]|].
  split; [intros [?|?]; [done|lia]|]. intros Hn. by destruct (Hn _ _ eq_refl).
Qed.
Lemma allowed_exempt E m m' k : allowed (state_of E m k) (state_of E m' k) = true -> exempt E m k -> exempt E m' k.
Proof.
  rewrite !exempt_state. intros Ha He s l Hs. rewrite Hs in Ha. cbn [allowed] in Ha. destruct (state_of E m k) eqn:Hm; try discriminate Ha. exact (He _ _ eq_refl).
Qed.
Lemma exempt_allowed E m m' k : exempt E m' k -> allowed (state_of E m k) (state_of E m' k) = true.
Proof. rewrite exempt_state. destruct (state_of E m' k) as [|s l|] eqn:Hm; try done. intros H. by destruct (H s l). Qed.
Lemma fee_ok_inv E t m : fee_ok E t m = true -> tx_payer t ∈ tx_signers t /\ wdat (world_of m) !! tx_payer t = None /\
  0 <= tx_fee t <= lam (world_of m) (tx_payer t) /\ allowed (state_of E m (tx_payer t)) (state_of E (charge t m) (tx_payer t)) = true.
Proof. unfold fee_ok. rewrite !andb_true_iff, !bool_decide_eq_true, !Z.leb_le. tauto. Qed.
Lemma charge_other t m k : k <> tx_payer t -> lam (world_of (charge t m)) k = lam (world_of m) k.
Proof. intros H. unfold charge, world_of. cbn [ch on]. apply lam_set_lam_ne. congruence. Qed.
Lemma charge_payer t m : lam (world_of (charge t m)) (tx_payer t) = lam (world_of m) (tx_payer t) - tx_fee t.
Proof. unfold charge, world_of. cbn [ch on]. apply lam_set_lam_eq. Qed.
Lemma charge_in_order E native t m : fee_ok E t m = true -> in_order E native m -> in_order E native (charge t m).
Proof.
  intros (_ & Hp & Hf & Ha)%fee_ok_inv [[L1 L2] U S A X]. split.
  - split.
    + intros k. destruct (decide (k = tx_payer t)) as [->|Hk]; [rewrite charge_payer; lia|]. rewrite charge_other by exact Hk. apply L1.
    + unfold charge, world_of in *. cbn [ch on]. rewrite lam_total_set_lam. lia.
  - unfold all_lamports, charge, world_of in *. cbn [ch on]. rewrite lam_total_set_lam.
    change (total_balance (set_lam (tx_payer t) (lam (on (ch m)) (tx_payer t) - tx_fee t) (on (ch m))) native) with (total_balance (on (ch m)) native). lia.
  - destruct S as [S1 S2]. split; [exact S1|exact S2].
  - intros k. destruct (decide (k = tx_payer t)) as [->|Hk]; [intros _; exact Hp|]. rewrite charge_other by exact Hk. apply A.
  - intros k. destruct (decide (k = tx_payer t)) as [->|Hk]; [exact (allowed_exempt _ _ _ _ Ha (X _))|].
    unfold exempt. rewrite charge_other by exact Hk. exact (X k).
Qed.
Lemma commits_in_order E native t m evs m' : fee_ok E t m = true -> commits E native t m evs m' -> in_order E native m -> in_order E native m'.
Proof.
  intros Hf [C1 C2 C3] Hm. pose proof (charge_in_order _ _ _ _ Hf Hm) as [L U S A X].
  pose proof (items_checked _ _ _ _ _ _ _ C1 L) as [K1 K2 K3]. split.
  - exact K3.
  - rewrite K2. exact U.
  - exact (sized_items _ _ _ _ _ _ _ C1 S).
  - exact C3.
  - intros k. destruct (decide (k ∈ writable t)) as [Hk|Hk]; [exact (allowed_exempt _ _ _ _ (C2 k Hk) (X k))|].
    destruct (K1 k Hk) as (_ & _ & B3 & B4). unfold exempt. rewrite B3, B4. exact (X k).
Qed.
Lemma mstep_in_order E native m evs m' : mstep E native m evs m' -> in_order E native m -> in_order E native m'.
Proof.
  intros [t evs' m2 [Hd|Hf Hn|evs2 m3 Hf Hc]|t|k n H0 Ht Hu Hr] Hm.
  - exact Hm.
  - exact (charge_in_order _ _ _ _ Hf Hm).
  - exact (commits_in_order _ _ _ _ _ _ Hf Hc Hm).
  - destruct Hm as [L U [S1 S2] A X]. split; [exact L|exact U|split; [exact S1|exact S2]|exact A|exact X].
  - destruct Hm as [[L1 L2] U [S1 S2] A X]. unfold world_of in *.
    assert (forall j, lam (set_lam k (lam (on (ch m)) k + n) (on (ch m))) j = if decide (j = k) then lam (on (ch m)) k + n else lam (on (ch m)) j) as Hl.
    { intros j. destruct (decide (j = k)) as [->|Hj]; [apply lam_set_lam_eq|apply lam_set_lam_ne; congruence]. }
    pose proof (L1 k) as Hk0. split.
    + split; [intros j; unfold world_of; cbn [ch on]; rewrite Hl; destruct (decide _); [lia|apply L1]|].
      unfold world_of. cbn [ch on]. rewrite lam_total_set_lam. lia.
    + unfold all_lamports, world_of in *. cbn [ch on]. rewrite lam_total_set_lam.
      change (total_balance (set_lam k (lam (on (ch m)) k + n) (on (ch m))) native) with (total_balance (on (ch m)) native). lia.
    + split; [exact S1|exact S2].
    + intros j. unfold world_of. cbn [ch on]. rewrite Hl. change (wdat (set_lam k (lam (on (ch m)) k + n) (on (ch m)))) with (wdat (on (ch m))).
      destruct (decide (j = k)) as [->|]; [intros He; apply A; lia|apply A].
    + intros j. unfold exempt, world_of. cbn [ch on]. rewrite Hl. change (len_of (Machine _ (lens m)) j) with (len_of m j).
      destruct (decide (j = k)) as [->|]; [right; exact Hr|exact (X j)].
Qed.
Lemma start_in_order E native l t : start_ok E l t -> in_order E native (start l t).
Proof.
  intros [H1 H2]. split; [exact H1| | |intros k _; apply lookup_empty|].
  - unfold all_lamports. change (total_balance (world_of (start l t)) native) with 0. rewrite Z.add_0_r. exact (proj2 H1).
  - split; [intros k d p n s Hk; unfold start, world_of in Hk; cbn in Hk; rewrite lookup_empty in Hk; discriminate Hk|].
    intros k _. unfold len_of, start. cbn [lens]. by rewrite lookup_empty.
  - intros k. unfold exempt, len_of, start. cbn [lens]. rewrite lookup_empty. exact (H2 k).
Qed.
Lemma mrun_in_order E native l t evs m : start_ok E l t -> mrun E native (start l t) evs m -> in_order E native m.
Proof. intros Hs Hr. induction Hr as [|evs m es m' Hr IH Hst]; [by apply start_in_order|]. exact (mstep_in_order _ _ _ _ _ Hst IH). Qed.

(** ** C74: whatever transactions are submitted, every account stays in order *)
Theorem C74_in_order : forall E native l t log m, start_ok E l t -> mrun E native (start l t) log m ->
  lam_total (world_of m) <= U64_MAX /\ lam_total (world_of m) + total_balance (world_of m) native <= U64_MAX /\
  forall k, 0 <= lam (world_of m) k <= U64_MAX /\
    (lam (world_of m) k = 0 -> wdat (world_of m) !! k = None) /\
    (lam (world_of m) k <> 0 -> rent_min E (len_of m k) <= lam (world_of m) k) /\
    (forall d p n s, wdat (world_of m) !! k = Some d -> owned d = Some (p, n, s) -> len_of m k = s /\ rent_min E s <= lam (world_of m) k).
Proof.
  intros E native l t log m Hs Hr. destruct (mrun_in_order _ _ _ _ _ _ Hs Hr) as [L U S A X]. split; [exact (proj2 L)|]. split; [exact U|]. intros k.
  split; [exact (C70_fits _ _ L)|]. split; [exact (A k)|]. split; [intros Hn; by destruct (X k)|].
  intros d p n s Hk Ho. pose proof (sz_ours _ S _ _ _ _ _ Hk Ho) as He. split; [exact He|]. rewrite <- He.
  destruct (X k) as [H0|H]; [|exact H]. rewrite (A k H0) in Hk. discriminate Hk.
Qed.

(** ** C74: a chain of transactions is a history *)
Definition events_of (tr : trace) : list event := concat (map snd tr).
Lemma events_snoc tr a evs : events_of (tr ++ [(a, evs)]) = events_of tr ++ evs.
Proof. unfold events_of. rewrite map_app, concat_app. cbn. by rewrite app_nil_r. Qed.
Definition reaches (E : env) (native : key) (c0 : chain) (log : list event) (c : chain) : Prop :=
  exists tr cs, crun E native c0 tr cs c /\ events_of tr = log.
Lemma reaches_step E native c0 log c a evs c' : reaches E native c0 log c -> cstep E native c a evs c' -> reaches E native c0 (log ++ evs) c'.
Proof. intros (tr & cs & Hr & <-) Hs. exists (tr ++ [(a, evs)]), (cs ++ [c']). split; [by eapply crun_snoc|]. apply events_snoc. Qed.
Lemma nobody E : outsiders E []. Proof. intros k H. by apply elem_of_nil in H. Qed.
Lemma reaches_outside E native c0 log c sg o c' : outsiders E sg -> outside E native sg o c = Ok c' -> reaches E native c0 log c -> reaches E native c0 log c'.
Proof. intros Hsg Ho H. rewrite <- (app_nil_r log). exact (reaches_step _ _ _ _ _ _ _ _ H (cstep_outside _ _ _ _ _ _ Hsg Ho)). Qed.
Lemma reaches_ops E native c0 log sg ops : outsiders E sg -> forall c c', outside_ops E native sg ops c = Ok c' -> reaches E native c0 log c -> reaches E native c0 log c'.
Proof.
  intros Hsg. induction ops as [|o ops IH]; intros c c' H Hr; [by injection H as <-|].
  assert (exists c1, outside E native sg o c = Ok c1 /\ outside_ops E native sg ops c1 = Ok c') as (c1 & H1 & H2).
  { destruct o; try (cbn [outside_ops] in H; apply rbind_ok in H as (c1 & H1 & H2); exists c1; split; [exact H1|exact H2]). discriminate H. }
  exact (IH _ _ H2 (reaches_outside _ _ _ _ _ _ _ _ Hsg H1 Hr)).
Qed.
Lemma reaches_ours E native c0 log sg i m m' evs : signers_ok E sg -> our_step E sg i m = Ok (m', evs) -> reaches E native c0 log (ch m) ->
  reaches E native c0 (log ++ evs) (ch m').
Proof.
  intros Hsg Hx Hr. apply our_step_ok in Hx as (w' & Hx & ->). destruct i as [ix|ix]; cbn [exec] in Hx.
  - exact (reaches_step _ _ _ _ _ _ _ _ Hr (cstep_lockup _ _ _ _ _ _ _ Hsg Hx)).
  - exact (reaches_step _ _ _ _ _ _ _ _ Hr (cstep_merkle _ _ _ _ _ _ _ Hsg Hx)).
Qed.
Lemma reaches_items E native c0 t m xs evs m' : items_run E native t m xs evs m' -> forall log, reaches E native c0 log (ch m) -> reaches E native c0 (log ++ evs) (ch m').
Proof.
  intros H. induction H as [m|m x xs e1 e2 m1 m2 Hs Hc Hr IH]; intros log H0; [by rewrite app_nil_r|].
  rewrite app_assoc. apply IH. destruct Hs as [extra i evs m' Hsg _ Hx|extra ops new c' Hsg Ho _ _].
  - exact (reaches_ours _ _ _ _ _ _ _ _ _ (outsiders_signers _ _ Hsg) Hx H0).
  - rewrite app_nil_r. exact (reaches_ops _ _ _ _ _ _ Hsg _ _ Ho H0).
Qed.
Lemma reaches_charge E native c0 log t m : fee_ok E t m = true -> reaches E native c0 log (ch m) -> reaches E native c0 log (ch (charge t m)).
Proof.
  intros (_ & Hp & _)%fee_ok_inv. apply (reaches_outside _ _ _ _ _ [] (OLamports (tx_payer t) (lam (world_of m) (tx_payer t) - tx_fee t))); [apply nobody|].
  unfold world_of in Hp. cbn [outside]. rewrite Hp. reflexivity.
Qed.
Lemma reaches_mstep E native c0 log m evs m' : mstep E native m evs m' -> reaches E native c0 log (ch m) -> reaches E native c0 (log ++ evs) (ch m').
Proof.
  intros [t evs' m2 [Hd|Hf Hn|evs2 m3 Hf [Hc _ _]]|t|k n H0 Ht Hu Hr] Hm.
  - by rewrite app_nil_r.
  - rewrite app_nil_r. exact (reaches_charge _ _ _ _ _ _ Hf Hm).
  - exact (reaches_items _ _ _ _ _ _ _ _ Hc _ (reaches_charge _ _ _ _ _ _ Hf Hm)).
  - rewrite app_nil_r. revert Hm. apply (reaches_outside _ _ _ _ _ [] (OClock t)); [apply nobody|]. reflexivity.
  - rewrite app_nil_r. revert Hm. apply (reaches_outside _ _ _ _ _ [] (OLamports k (lam (world_of m) k + n))); [apply nobody|].
    cbn [outside]. unfold world_of. rewrite (proj2 (Z.leb_le _ _)) by lia.
    destruct (wdat (on (ch m)) !! k) as [d|]; [destruct (owner_prog d)|]; reflexivity.
Qed.
Lemma mrun_reaches E native l t log m : mrun E native (start l t) log m -> reaches E native (empty_chain l t) log (ch m).
Proof.
  intros Hr. induction Hr as [|log m es m' Hr IH Hs].
  - exists [], [empty_chain l t]. split; [constructor|done].
  - exact (reaches_mstep _ _ _ _ _ _ _ Hs IH).
Qed.
Theorem C74_history : forall E native l t log m, env_ok E -> pda_of E PLockup native = false -> mrun E native (start l t) log m ->
  exists tr cs, crun E native (empty_chain l t) tr cs (ch m) /\ events_of tr = log /\
    (ata_clash E cs \/ history_via E any_clock tr (map on cs) (world_of m)).
Proof.
  intros E native l t log m HE Hn Hr. destruct (mrun_reaches _ _ _ _ _ _ Hr) as (tr & cs & Hc & Hl). exists tr, cs. split; [exact Hc|]. split; [exact Hl|].
  exact (C73_history _ _ _ _ _ _ _ HE Hn Hc).
Qed.

(** ** C74: what the runtime accepts *)
(** The instructions of a transaction one after the other, each with the transaction's signatures and those of its caller. *)
Fixpoint our_run (E : env) (sg : list key) (xs : list (list key * any_ix)) (m : machine) : res (machine * list event) :=
  match xs with
  | [] => Ok (m, [])
  | (x, i) :: xs => let! r := our_step E (sg ++ x) i m in let! r' := our_run E sg xs (fst r) in Ok (fst r', snd r ++ snd r')
  end.
Lemma our_run_cons E sg x i xs m m2 evs : our_run E sg ((x, i) :: xs) m = Ok (m2, evs) <->
  exists m1 e1 e2, our_step E (sg ++ x) i m = Ok (m1, e1) /\ our_run E sg xs m1 = Ok (m2, e2) /\ evs = e1 ++ e2.
Proof.
  cbn [our_run]. split.
  - intros H. apply rbind_ok in H as ([m1 e1] & H1 & H). apply rbind_ok in H as ([m2' e2] & H2 & H). cbn in *. injection H as <- <-. by exists m1, e1, e2.
  - intros (m1 & e1 & e2 & H1 & H2 & ->). rewrite H1. cbn [rbind fst snd]. rewrite H2. reflexivity.
Qed.
(** Every account with data holds the rent of its size. *)
Definition solid (E : env) (m : machine) : Prop := forall k, wdat (world_of m) !! k <> None -> rent_min E (len_of m k) <= lam (world_of m) k.
Lemma in_order_solid E native m : in_order E native m -> solid E m.
Proof. intros [_ _ _ A X] k Hk. destruct (X k) as [H|H]; [|exact H]. by destruct (Hk (A k H)). Qed.
Lemma exec_keeps E sg i w w' evs k d : exec E sg i w = Ok (w', evs) -> wdat w !! k = Some d ->
  lam w k <= lam w' k \/ (exists p n, owned d = Some (p, n, 105)) /\ rent_min E 105 <= lam w' k.
Proof.
  destruct i as [ix|ix]; cbn [exec]; intros Hx Hk.
  - apply lockup_exec_effect in Hx as [_ Hx]. destruct (lockup_lam _ _ _ _ _ _ _ _ Hx Hk) as [?|[(t & ->) ?]]; [by left|right]. split; [by eexists _, _|done].
  - apply merkle_exec_effect in Hx as [_ Hx]. destruct (merkle_lam _ _ _ _ _ _ _ _ Hx Hk) as [?|[(t & ->) ?]]; [by left|right]. split; [by eexists _, _|done].
Qed.
Lemma solid_ours E sg i m m' evs : env_ok E -> our_step E sg i m = Ok (m', evs) -> nn (world_of m) -> sized m -> solid E m -> solid E m'.
Proof.
  intros HE Hx Hnn S H k Hk. apply our_step_ok in Hx as (w' & Hx & ->). unfold solid, world_of, len_of in *. cbn [ch on lens] in *.
  destruct (wdat (on (ch m)) !! k) as [d|] eqn:Hd.
  - rewrite grow_some by congruence. specialize (H k ltac:(congruence)). destruct (exec_keeps _ _ _ _ _ _ _ _ Hx Hd) as [Hl|[(p & n & Ho) Hl]]; [lia|].
    pose proof (sz_ours _ S _ _ _ _ _ Hd Ho) as He. unfold len_of in He. rewrite He. exact Hl.
  - pose proof (exec_born _ _ _ _ _ _ _ Hx Hd Hk) as Hin. apply elem_of_list_fmap in Hin as ([k' s] & -> & Hin). cbn in *.
    rewrite (grow_new _ _ _ _ _ (creates_nodup _ _ _ _ _ _ Hx) Hin Hd). cbn [default].
    destruct (exec_bill _ _ _ _ _ _ HE Hx) as (fee & _ & _ & _ & Hf & _). exact (proj2 (funded_all _ _ _ _ _ _ Hf Hin Hd (Hnn _))).
Qed.
Lemma exempt_ours E sg i m m' evs k : env_ok E -> our_step E sg i m = Ok (m', evs) -> nn (world_of m) -> sized m -> solid E m -> k <> exposed i -> exempt E m k -> exempt E m' k.
Proof.
  intros HE Hx Hnn S Hso Hk He. pose proof (solid_ours _ _ _ _ _ _ HE Hx Hnn S Hso) as Hs'. pose proof (sized_ours _ _ _ _ _ _ Hx S) as S'.
  destruct (wdat (world_of m') !! k) as [d|] eqn:Hd; [right; apply Hs'; congruence|].
  apply our_step_ok in Hx as (w' & Hx & ->). unfold world_of in Hd. cbn [ch on] in Hd. destruct (exec_made _ _ _ _ _ _ _ Hx Hd) as [H0 Hni].
  assert (lam w' k = lam (world_of m) k) as Hl.
  { destruct (C71_rent_states _ _ _ _ _ _ _ HE Hx (Hnn _) Hk) as [?|Hn _|s Hin _ _|(a & [[-> Ht]|[-> Ht]]) _]; [done|by destruct (Hn H0)| | |].
    - exfalso. apply Hni. apply elem_of_list_fmap. by exists (k, s).
    - cbn [exec] in Hx. apply lockup_exec_effect in Hx as [_ Hx].
      inversion Hx as [| ? ? ? ? ? ? ? ? ? ? ? ? ? ? [?|(? & ? & _)] | | |? ? ? ? ? ? ? ? ? ? ? ? ? ? [?|[? _]] |? tr n ? ? Htr]; subst; try discriminate. congruence.
    - cbn [exec] in Hx. apply merkle_exec_effect in Hx as [_ Hx]. inversion Hx as [| | | |? tr n ? ? Htr]; subst. congruence. }
  unfold exempt in *. rewrite (sz_none _ S' k Hd). rewrite (sz_none _ S k H0) in He. change (lam w' k = 0 \/ rent_min E 0 <= lam w' k). rewrite Hl. exact He.
Qed.
(** The mint of wrapped SOL has no extensions and is not at an address derived by Lockup. *)
Definition native_ok (E : env) (native : key) : Prop := plain E native = true /\ pda_of E PLockup native = false.
Lemma exec_wrapped E native sg i w w' evs : env_ok E -> signers_ok E sg -> native_ok E native -> exec E sg i w = Ok (w', evs) ->
  all_lamports native w' = all_lamports native w.
Proof.
  intros HE Hsg [Hpl Hpd] Hx. unfold all_lamports. destruct i as [ix|ix]; cbn [exec] in Hx.
  - destruct (C32_lockup _ _ _ _ _ _ HE Hsg Hx) as [-> Ht]. rewrite (proj1 (Ht native) Hpl). enough (minted_lockup ix native = 0) as -> by lia.
    apply lockup_exec_effect in Hx as [_ Hx].
    destruct Hx as [a f p c tb nb ? F|ix a p ct nc cm dm sb s1 nm c0 c1 ? ? Hix Hargs F| | |? a0 ? ? ? ? ? ? ? ? ? ? ? ? Hix| ]; try reflexivity.
    + destruct (if_mint_addr _ _ _ _ _ _ _ _ _ _ F) as (b & Hb). destruct (fpa_pda _ _ _ _ _ HE Hb) as [Hp _]. cbn [minted_lockup].
      destruct (Z.eqb_spec native (ia_mint a)) as [->|]; [congruence|reflexivity].
    + destruct (rf_nft_mint_addr _ _ _ _ _ _ _ _ _ _ _ _ _ _ _ _ F) as (b & Hb). destruct (fpa_pda _ _ _ _ _ HE Hb) as [Hp _].
      assert (minted_lockup ix native = if native =? ca_nft_mint a then 1 else 0) as -> by (destruct Hix as [->|(q & -> & _)]; reflexivity).
      destruct (Z.eqb_spec native (ca_nft_mint a)) as [->|]; [congruence|reflexivity].
    + destruct Hix as [->|[-> _]]; reflexivity.
  - destruct (C32_merkle _ _ _ _ _ _ HE Hsg Hx) as [-> Ht]. by rewrite (proj1 (Ht native) Hpl).
Qed.
Lemma our_step_checked E native t sg i m m' evs : env_ok E -> native_ok E native -> signers_ok E sg -> (forall k, k ∈ writable_of i -> k ∈ writable t) -> lamports_ok (world_of m) ->
  our_step E sg i m = Ok (m', evs) -> checked native t m m' /\ lamports_ok (world_of m').
Proof.
  intros HE Hna Hsg Hw Hl Hx. apply our_step_ok in Hx as (w' & Hx & ->). destruct (C70_lamports _ _ _ _ _ _ HE Hsg Hx Hl) as [Hl' Hr].
  split; [|exact Hl']. split; [|  |exact Hl'].
  - intros k Hk. assert (k ∉ writable_of i) as Hki by (intros H; apply Hk, Hw, H). destruct (exec_touches _ _ _ _ _ _ Hx k Hki) as [H1 H2].
    split; [exact H1|]. split; [reflexivity|]. split; [exact H2|]. unfold len_of. cbn [lens]. rewrite grow_not; [reflexivity|].
    intros H. apply Hki. exact (creates_writable _ _ _ H).
  - exact (exec_wrapped _ _ _ _ _ _ _ HE Hsg Hna Hx).
Qed.
Lemma our_run_invs E sg xs : env_ok E -> (forall x i, (x, i) ∈ xs -> outsiders E (sg ++ x)) -> forall m m' evs, our_run E sg xs m = Ok (m', evs) -> 
  nn (world_of m) -> sized m -> solid E m -> sized m' /\ solid E m' /\ forall k, (forall x i, (x, i) ∈ xs -> k <> exposed i) -> exempt E m k -> exempt E m' k.
Proof.
  intros HE. induction xs as [|[x i] xs IH]; intros Hsg m m' evs H Hnn S1 S2.
  - injection H as <- <-. split; [exact S1|]. split; [exact S2|]. done.
  - apply our_run_cons in H as (m1 & e1 & e2 & H1 & H2 & ->).
    assert (nn (world_of m1)) as Hnn1 by (apply our_step_ok in H1 as (w1 & H1 & ->); exact (exec_nn _ _ _ _ _ _ HE Hnn H1)).
    destruct (IH (fun x i Hin => Hsg x i (elem_of_list_further _ _ _ Hin)) _ _ _ H2 Hnn1 (sized_ours _ _ _ _ _ _ H1 S1) (solid_ours _ _ _ _ _ _ HE H1 Hnn S1 S2)) as (A & B & C).
    split; [exact A|]. split; [exact B|]. intros k Hk Hek. apply C; [intros x' i' Hin; apply (Hk x'); by right|].
    exact (exempt_ours _ _ _ _ _ _ _ HE H1 Hnn S1 S2 (Hk x i ltac:(left)) Hek).
Qed.
Lemma long_our_run E sg xs : (forall m, 0 <= ext_space E m) -> forall m m' evs, our_run E sg xs m = Ok (m', evs) -> long m -> long m'.
Proof.
  intros Hx. induction xs as [|[x i] xs IH]; intros m m' evs H Hm; [by injection H as <- <-|].
  apply our_run_cons in H as (m1 & e1 & e2 & H1 & H2 & ->). exact (IH _ _ _ H2 (long_ours _ _ _ _ _ _ Hx H1 Hm)).
Qed.
Lemma items_our_run E native t xs : env_ok E -> native_ok E native -> (forall x i, (x, i) ∈ xs -> outsiders E (tx_signers t ++ x)) -> forall m m' evs, lamports_ok (world_of m) ->
  items_run E native t m (map (fun '(x, i) => IOurs x i) xs) evs m' <->
  our_run E (tx_signers t) xs m = Ok (m', evs) /\ forall x i k, (x, i) ∈ xs -> k ∈ writable_of i -> k ∈ writable t.
Proof.
  intros HE Hna. induction xs as [|[x i] xs IH]; intros Hsg m m' evs Hl.
  - cbn [map our_run]. split.
    + intros H. inversion H; subst. split; [done|]. intros x i k Hin. by apply elem_of_nil in Hin.
    + intros [H _]. injection H as <- <-. constructor.
  - assert (forall x i, (x, i) ∈ xs -> outsiders E (tx_signers t ++ x)) as Hsg' by (intros x' i' Hin; apply (Hsg x' i'); by right).
    cbn [map]. rewrite our_run_cons. split.
    + intros H. inversion H as [|? ? ? e1 e2 m1 m2 Hs Hc Hr]; subst. inversion Hs as [? ? ? ? Ho Hw Hx|]; subst.
      destruct (our_step_checked E native t _ _ _ _ _ HE Hna (outsiders_signers _ _ Ho) Hw Hl Hx) as [_ Hl1].
      apply (IH Hsg' _ _ _ Hl1) in Hr as [Hr Hws]. split; [by exists m1, e1, e2|].
      intros x' i' k Hin Hk. apply elem_of_cons in Hin as [Hin|Hin]; [injection Hin as -> ->; exact (Hw k Hk)|exact (Hws _ _ _ Hin Hk)].
    + intros [(m1 & e1 & e2 & H1 & H2 & ->) Hw].
      assert (forall k, k ∈ writable_of i -> k ∈ writable t) as Hwi by (intros k Hk; apply (Hw x i k); [left|exact Hk]).
      destruct (our_step_checked E native t _ _ _ _ _ HE Hna (outsiders_signers _ _ (Hsg x i ltac:(left))) Hwi Hl H1) as [Hc Hl1].
      refine (items_cons _ _ _ _ _ _ _ _ m1 _ (item_ours _ _ _ _ _ _ _ _ (Hsg x i ltac:(left)) Hwi H1) Hc _).
      apply (IH Hsg' _ _ _ Hl1). split; [exact H2|]. intros x' i' k Hin. apply (Hw x'). by right.
Qed.

(** A transaction made of instructions of the two programs commits exactly when they succeed one after the other, the accounts
    they declare writable are writable in the transaction, and every payer and every recipient of collected fees is left with
    nothing or with the rent of its size. The runtime's other checks never fail; and what is committed is what they did. *)
Theorem C74_accepted : forall E native l t0 log m t xs,
  env_ok E -> rent_real E -> native_ok E native -> start_ok E l t0 -> mrun E native (start l t0) log m -> fee_ok E t m = true ->
  tx_items t = map (fun '(x, i) => IOurs x i) xs -> (forall x i, (x, i) ∈ xs -> outsiders E (tx_signers t ++ x)) ->
  forall evs m', commits E native t m evs m' <->
    our_run E (tx_signers t) xs (charge t m) = Ok (m', evs) /\
    (forall x i k, (x, i) ∈ xs -> k ∈ writable_of i -> k ∈ writable t) /\
    (forall x i, (x, i) ∈ xs -> lam (world_of m') (exposed i) = 0 \/ rent_min E (len_of m' (exposed i)) <= lam (world_of m') (exposed i)).
Proof.
  intros E native l t0 log m t xs HE Hp Hna Hs Hr Hf Hxs Hsg evs m'. pose proof (mrun_in_order _ _ _ _ _ _ Hs Hr) as Hm.
  pose proof (charge_in_order _ _ _ _ Hf Hm) as Hc. pose proof (in_order_solid _ _ _ Hc) as Hso. destruct Hc as [L U S A X]. split.
  - intros H. pose proof (commits_in_order _ _ _ _ _ _ Hf H Hm) as [_ _ _ _ X']. destruct H as [C1 C2 C3]. rewrite Hxs in C1.
    apply (items_our_run _ _ _ _ HE Hna Hsg _ _ _ L) in C1 as [C1 Cw]. split; [exact C1|]. split; [exact Cw|]. intros x i _. exact (X' (exposed i)).
  - intros (Hrun & Hw & He). destruct (our_run_invs _ _ _ HE Hsg _ _ _ Hrun (proj1 L) S Hso) as (S' & Hso' & Hex). split.
    + rewrite Hxs. apply (items_our_run _ _ _ _ HE Hna Hsg _ _ _ L). split; [exact Hrun|exact Hw].
    + intros k _. apply exempt_allowed. destruct (decide (k ∈ (fun '(x, i) => exposed i) <$> xs)) as [Hin|Hni].
      * apply elem_of_list_fmap in Hin as ([x i] & -> & Hin). exact (He x i Hin).
      * apply Hex; [|exact (X k)]. intros x i Hin ->. apply Hni. apply elem_of_list_fmap. by exists (x, i).
    + intros k H0. destruct (wdat (world_of m') !! k) eqn:Hk; [|done]. exfalso. assert (wdat (world_of m') !! k <> None) as Hne by congruence.
      pose proof (Hso' k Hne) as Hge. destruct Hp as [Hp Hxs'].
      assert (long (charge t m)) as Hlo by exact (long_mrun _ _ _ _ _ _ Hxs' Hr). specialize (Hp (len_of m' k) (long_our_run _ _ _ Hxs' _ _ _ Hrun Hlo k)). lia.
Qed.
(** So the outcome of such a transaction is determined: all of it, or nothing but the fee. *)
Theorem C74_outcome : forall E native l t0 log m t xs,
  env_ok E -> rent_real E -> native_ok E native -> start_ok E l t0 -> mrun E native (start l t0) log m -> fee_ok E t m = true ->
  tx_items t = map (fun '(x, i) => IOurs x i) xs -> (forall x i, (x, i) ∈ xs -> outsiders E (tx_signers t ++ x)) ->
  forall evs m', processed E native t m evs m' ->
    (our_run E (tx_signers t) xs (charge t m) = Ok (m', evs) /\ forall k, lam (world_of m') k = 0 \/ rent_min E (len_of m' k) <= lam (world_of m') k) \/
    (evs = [] /\ wdat (world_of m') = wdat (world_of m) /\ sides (ch m') = sides (ch m) /\ wclock (world_of m') = wclock (world_of m) /\
     (forall k, lam (world_of m') k = lam (world_of m) k - (if k =? tx_payer t then tx_fee t else 0)) /\
     forall evs2 m2, our_run E (tx_signers t) xs (charge t m) = Ok (m2, evs2) ->
       (exists x i k, (x, i) ∈ xs /\ k ∈ writable_of i /\ k ∉ writable t) \/
       (exists x i, (x, i) ∈ xs /\ 0 < lam (world_of m2) (exposed i) < rent_min E (len_of m2 (exposed i)))).
Proof.
  intros E native l t0 log m t xs HE Hp Hna Hs Hr Hf Hxs Hsg evs m' Hpr.
  pose proof (C74_accepted E native l t0 log m t xs HE Hp Hna Hs Hr Hf Hxs Hsg) as Hacc.
  destruct Hpr as [Hd|_ Hn|evs m' _ Hc]; [congruence| |].
  - right. split; [done|]. split; [done|]. split; [done|]. split; [done|]. split.
    + intros k. destruct (Z.eqb_spec k (tx_payer t)) as [->|Hk]; [apply charge_payer|]. rewrite charge_other by exact Hk. lia.
    + intros evs2 m2 Hrun. 
      destruct (decide (Forall (fun '(x, i) => Forall (fun k => k ∈ writable t) (writable_of i)) xs)) as [Hw|Hw].
      * right. pose proof (mrun_in_order _ _ _ _ _ _ Hs Hr) as Hm. pose proof (charge_in_order _ _ _ _ Hf Hm) as Hci.
        pose proof (in_order_solid _ _ _ Hci) as Hso. destruct Hci as [L U S A X].
        destruct (decide (Exists (fun '(x, i) => 0 < lam (world_of m2) (exposed i) < rent_min E (len_of m2 (exposed i))) xs)) as [Hex|Hex].
        { apply Exists_exists in Hex as ([x i] & Hin & Hlt). exists x, i. split; [exact Hin|exact Hlt]. }
        exfalso. apply (Hn evs2 m2). apply Hacc. split; [exact Hrun|]. rewrite Forall_forall in Hw.
        assert (lamports_ok (world_of m2)) as [L2 _].
        { assert (forall x i k, (x, i) ∈ xs -> k ∈ writable_of i -> k ∈ writable t) as Hw' by
            (intros x i k Hin Hk; specialize (Hw _ Hin); cbn in Hw; rewrite Forall_forall in Hw; exact (Hw k Hk)).
          pose proof (proj2 (items_our_run E native t xs HE Hna Hsg _ _ _ L) (conj Hrun Hw')) as Hit.
          exact (ck_range _ _ _ _ (items_checked _ _ _ _ _ _ _ Hit L)). }
        split; [intros x i k Hin Hk; specialize (Hw _ Hin); cbn in Hw; rewrite Forall_forall in Hw; exact (Hw k Hk)|].
        intros x i Hin. destruct (decide (lam (world_of m2) (exposed i) = 0)) as [H0|H0]; [by left|right].
        destruct (Z.le_gt_cases (rent_min E (len_of m2 (exposed i))) (lam (world_of m2) (exposed i))) as [Hle|Hgt]; [exact Hle|].
        exfalso. apply Hex. apply Exists_exists. exists (x, i). split; [exact Hin|]. cbn. pose proof (L2 (exposed i)). lia.
      * left. apply not_Forall_Exists in Hw; [|intros [x i]; apply _]. apply Exists_exists in Hw as ([x i] & Hin & Hw). cbn in Hw.
        apply not_Forall_Exists in Hw; [|intros k; apply _]. apply Exists_exists in Hw as (k & Hk & Hnk). exists x, i, k. done.
  - left. pose proof (commits_in_order _ _ _ _ _ _ Hf Hc (mrun_in_order _ _ _ _ _ _ Hs Hr)) as [_ _ _ _ X].
    apply Hacc in Hc as (Hrun & _ & _). split; [exact Hrun|exact X].
Qed.

(** ** Examples: a checker for concrete transactions *)
Definition op_touches (o : outside_op) : list key :=
  match o with
  | OClock _ => []
  | OLamports k _ | OForeign k _ | OMetaplex k _ | OInitMint k _ _ _ _ | OInitAccount k _ _ _ _ | OCreateAta k _ _ _ _ | OApprove k _ _ _ | ORevoke k _
  | OFreeze k _ _ | OSetOwner k _ _ | OSetCloser k _ _ | OSetMintAuth k _ _ | OSetFreezeAuth k _ _ | OClose k _ | OCloseMint k | OSync k _ | OExtension k _ => [k]
  | OTransfer _ from to _ _ _ => [from; to]
  | OMintTo _ mintk to _ _ => [mintk; to]
  | OBurn _ k mintk _ _ => [k; mintk]
  end.
Definition same_at (k : key) (c c' : chain) : Prop := wdat (on c') !! k = wdat (on c) !! k /\ side_of c' k = side_of c k /\ lam (on c') k = lam (on c) k.
Lemma same_put k j o c c' : k <> j -> same_at k c c' -> same_at k c (put j o c').
Proof. intros Hk (A & B & C). split; [|split; [exact B|exact C]]. cbn [put on]. rewrite wput_other by exact Hk. exact A. Qed.
Lemma same_put_side k j s c c' : k <> j -> same_at k c c' -> same_at k c (put_side j s c').
Proof. intros Hk (A & B & C). split; [exact A|split; [|exact C]]. rewrite side_put_other by exact Hk. exact B. Qed.
Lemma same_refl k c : same_at k c c. Proof. done. Qed.
Lemma outside_touches E native sg o c c' k : outside E native sg o c = Ok c' -> k ∉ op_touches o -> same_at k c c'.
Proof.
  intros H Hk. destruct o; cbn [outside op_touches] in *; rewrite ?not_elem_of_cons in Hk; inv_all H;
    try match goal with H : (if ?b then _ else _) = Ok _ |- _ => destruct b; inv_all H end;
    match goal with H : Ok _ = Ok c' |- _ => injection H as <- end; destruct_and?;
    repeat (first [apply same_put; [assumption|]|apply same_put_side; [assumption|]]); try apply same_refl.
  all: split; [done|]; split; [done|]; first [done|apply lam_set_lam_ne; congruence].
Qed.
Lemma ops_touch E native sg ops k : forall c c', outside_ops E native sg ops c = Ok c' -> (forall o, o ∈ ops -> k ∉ op_touches o) -> same_at k c c'.
Proof.
  induction ops as [|o ops IH]; intros c c' H Hk; [injection H as <-; apply same_refl|].
  assert (exists c1, outside E native sg o c = Ok c1 /\ outside_ops E native sg ops c1 = Ok c') as (c1 & H1 & H2).
  { destruct o; try (cbn [outside_ops] in H; apply rbind_ok in H as (c1 & H1 & H2); exists c1; split; [exact H1|exact H2]). discriminate H. }
  destruct (outside_touches _ _ _ _ _ _ k H1 (Hk o ltac:(left))) as (A & B & C).
  destruct (IH _ _ H2 (fun o Hin => Hk o (elem_of_list_further _ _ _ Hin))) as (A' & B' & C'). split_and!; congruence.
Qed.

Definition inb (k : key) (l : list key) : bool := existsb (Z.eqb k) l.
Lemma inb_in k l : inb k l = true -> k ∈ l.
Proof. intros H. apply existsb_exists in H as (j & Hj & He). apply Z.eqb_eq in He as ->. by apply elem_of_list_In. Qed.
Definition lens_check (wr : list key) (m : machine) (c' : chain) (new : gmap key Z) : bool :=
  forallb (fun x => bool_decide (new !! fst x = lens m !! fst x) || (inb (fst x) wr && bool_decide (kind_at (world_of m) (fst x) = None)))
    (map_to_list new ++ map_to_list (lens m)) &&
  forallb (fun x => (0 <=? snd x) && (bool_decide (wdat (on c') !! fst x <> None) || (snd x =? 0))) (map_to_list new).
Lemma lens_check_ok wr m c' new : lens_check wr m c' new = true ->
  (forall k, k ∉ wr -> new !! k = lens m !! k) /\ (forall k d, wdat (world_of m) !! k = Some d -> owned d <> None -> new !! k = lens m !! k) /\
  (forall k, 0 <= default 0 (new !! k) /\ (wdat (on c') !! k = None -> default 0 (new !! k) = 0)).
Proof.
  unfold lens_check. rewrite andb_true_iff, !forallb_forall. intros [H1 H2].
  assert (forall k, new !! k = lens m !! k \/ k ∈ wr /\ kind_at (world_of m) k = None) as Hall.
  { intros k. destruct (new !! k) as [z|] eqn:Hz.
    - specialize (H1 (k, z)). cbn in H1. rewrite orb_true_iff, andb_true_iff, !bool_decide_eq_true, Hz in H1.
      destruct H1 as [H|[H H']]; [rewrite <- elem_of_list_In, elem_of_app, !elem_of_map_to_list; by left|by left|right]. split; [by apply inb_in|done].
    - destruct (lens m !! k) as [z|] eqn:Hl; [|by left].
      specialize (H1 (k, z)). cbn in H1. rewrite orb_true_iff, andb_true_iff, !bool_decide_eq_true, Hz, Hl in H1.
      destruct H1 as [H|[H H']]; [rewrite <- elem_of_list_In, elem_of_app, !elem_of_map_to_list; by right|by left|right]. split; [by apply inb_in|done]. }
  split; [intros k Hk; by destruct (Hall k) as [?|[? _]]|]. split.
  - intros k d Hk Hd. destruct (Hall k) as [?|[_ Hn]]; [done|]. unfold kind_at in Hn. rewrite Hk in Hn. done.
  - intros k. destruct (new !! k) as [z|] eqn:Hz; [|done]. cbn. specialize (H2 (k, z)). cbn in H2.
    rewrite andb_true_iff, orb_true_iff, bool_decide_eq_true, Z.eqb_eq, Z.leb_le in H2.
    destruct H2 as [H0 H]; [rewrite <- elem_of_list_In; by apply elem_of_map_to_list|]. split; [exact H0|]. intros Hk. by destruct H.
Qed.
Definition range_check (w : world) : bool := forallb (fun x => (0 <=? snd x) && (snd x <=? U64_MAX)) (map_to_list (wlam w)).
Lemma range_check_ok w : range_check w = true -> forall k, 0 <= lam w k <= U64_MAX.
Proof.
  unfold range_check. rewrite forallb_forall. intros H k. unfold lam. destruct (wlam w !! k) as [z|] eqn:Hk; [|cbn; unfold U64_MAX; lia].
  specialize (H (k, z)). cbn in H. rewrite andb_true_iff, !Z.leb_le in H. apply H. rewrite <- elem_of_list_In. by apply elem_of_map_to_list.
Qed.
Definition run_item (E : env) (native : key) (t : tx) (x : item) (m : machine) : option (list event * machine) :=
  match x with
  | IOurs extra i =>
      if outsiders_check E (tx_signers t ++ extra) && forallb (fun k => inb k (writable t)) (writable_of i) then
        match our_step E (tx_signers t ++ extra) i m with Ok (m', evs) => Some (evs, m') | Err _ => None end
      else None
  | IOutside extra ops new =>
      if outsiders_check E (tx_signers t ++ extra) && forallb (fun o => forallb (fun k => inb k (writable t)) (op_touches o)) ops then
        match outside_ops E native (tx_signers t ++ extra) ops (ch m) with
        | Ok c' => if lens_check (writable t) m c' new && (all_lamports native (on c') =? all_lamports native (world_of m)) && (lam_total (on c') <=? U64_MAX) && range_check (on c') then Some ([], Machine c' new) else None
        | Err _ => None
        end
      else None
  end.
Lemma run_item_ok E native t x m evs m' : env_ok E -> native_ok E native -> lamports_ok (world_of m) -> run_item E native t x m = Some (evs, m') ->
  item_step E native t m x evs m' /\ checked native t m m' /\ lamports_ok (world_of m').
Proof.
  intros HE Hna Hl H. destruct x as [extra i|extra ops new]; cbn [run_item] in H.
  - destruct (outsiders_check _ _ && _) eqn:Hc; [|discriminate H]. apply andb_prop in Hc as [Ho Hw].
    destruct (our_step _ _ _ _) as [[m1 e1]|] eqn:Hx; [|discriminate H]. injection H as <- <-. apply outsiders_from_check in Ho.
    assert (forall k, k ∈ writable_of i -> k ∈ writable t) as Hwr.
    { intros k Hk. rewrite forallb_forall in Hw. apply inb_in, Hw. by apply elem_of_list_In. }
    split; [by apply item_ours|]. exact (our_step_checked E native t _ _ _ _ _ HE Hna (outsiders_signers _ _ Ho) Hwr Hl Hx).
  - destruct (outsiders_check _ _ && _) eqn:Hc; [|discriminate H]. apply andb_prop in Hc as [Ho Hw].
    destruct (outside_ops _ _ _ _ _) as [c'|] eqn:Hx; [|discriminate H]. destruct (lens_check _ _ _ _ && _ && _ && _) eqn:Hk; [|discriminate H]. injection H as <- <-.
    apply andb_prop in Hk as [[[Hle Ht]%andb_prop Hu%Z.leb_le]%andb_prop Hr]. apply outsiders_from_check in Ho. apply lens_check_ok in Hle as (L1 & L2 & L3).
    apply Z.eqb_eq in Ht. pose proof (range_check_ok _ Hr) as Hr'. split; [by apply item_outside|].
    assert (lamports_ok (on c')) as Hl' by (split; [intros k; exact (proj1 (Hr' k))|exact Hu]). split.
    + split; [|exact Ht|exact Hl']. intros k Hk. rewrite forallb_forall in Hw.
      destruct (ops_touch _ _ _ _ k _ _ Hx) as (A & B & C).
      { intros o Hin Hko. specialize (Hw o (proj1 (elem_of_list_In _ _) Hin)). rewrite forallb_forall in Hw. apply Hk, inb_in, Hw. by apply elem_of_list_In. }
      split; [exact A|]. split; [exact B|]. split; [exact C|]. unfold len_of. cbn [lens]. by rewrite (L1 k Hk).
    + exact Hl'.
Qed.
Fixpoint run_items (E : env) (native : key) (t : tx) (xs : list item) (m : machine) : option (list event * machine) :=
  match xs with
  | [] => Some ([], m)
  | x :: xs => match run_item E native t x m with
      | Some (e1, m1) => match run_items E native t xs m1 with Some (e2, m2) => Some (e1 ++ e2, m2) | None => None end
      | None => None end
  end.
Lemma run_items_ok E native t xs : env_ok E -> native_ok E native -> forall m evs m', lamports_ok (world_of m) -> run_items E native t xs m = Some (evs, m') -> items_run E native t m xs evs m'.
Proof.
  intros HE Hna. induction xs as [|x xs IH]; intros m evs m' Hl H; cbn [run_items] in H; [injection H as <- <-; constructor|].
  destruct (run_item E native t x m) as [[e1 m1]|] eqn:H1; [|discriminate H]. destruct (run_items E native t xs m1) as [[e2 m2]|] eqn:H2; [|discriminate H].
  injection H as <- <-. destruct (run_item_ok _ _ _ _ _ _ _ HE Hna Hl H1) as (Hs & Hc & Hl1). exact (items_cons _ _ _ _ _ _ _ _ _ _ Hs Hc (IH _ _ _ Hl1 H2)).
Qed.
Inductive mcmd := MTx (t : tx) | MClock (t : Z).
Definition mdo (E : env) (native : key) (x : mcmd) (m : machine) : option (list event * machine) :=
  match x with
  | MClock t => Some ([], Machine (Chain (World (wlam (world_of m)) (wdat (world_of m)) t) (sides (ch m))) (lens m))
  | MTx t =>
      if fee_ok E t m then
        match run_items E native t (tx_items t) (charge t m) with
        | Some (evs, m') =>
            if forallb (fun k => allowed (state_of E (charge t m) k) (state_of E m' k)) (writable t) &&
               forallb (fun x => negb (lam (world_of m') (fst x) =? 0)) (map_to_list (wdat (world_of m'))) then Some (evs, m') else None
        | None => None end
      else None
  end.
Lemma mdo_ok E native x m evs m' : env_ok E -> native_ok E native -> in_order E native m -> mdo E native x m = Some (evs, m') -> mstep E native m evs m'.
Proof.
  intros HE Hna Hm H. destruct x as [t|t]; cbn [mdo] in H; [|injection H as <- <-; apply m_clock].
  destruct (fee_ok E t m) eqn:Hf; [|discriminate H]. destruct (run_items _ _ _ _ _) as [[e1 m1]|] eqn:Hr; [|discriminate H].
  destruct (forallb _ (writable t) && _) eqn:Hc; [|discriminate H]. injection H as <- <-. apply andb_prop in Hc as [Hw Ha].
  apply (m_tx _ _ _ t), tx_done; [exact Hf|]. split.
  - apply run_items_ok; [exact HE|exact Hna|exact (io_ledger _ _ _ (charge_in_order _ _ _ _ Hf Hm))|exact Hr].
  - intros k Hk. rewrite forallb_forall in Hw. apply Hw. by apply elem_of_list_In.
  - intros k H0. destruct (wdat (world_of m1) !! k) as [d|] eqn:Hd; [|done]. exfalso. rewrite forallb_forall in Ha.
    specialize (Ha (k, d) (proj1 (elem_of_list_In _ _) (proj2 (elem_of_map_to_list _ _ _) Hd))). cbn in Ha. rewrite H0 in Ha. discriminate Ha.
Qed.
Fixpoint mscript (E : env) (native : key) (xs : list mcmd) (r : list event * machine) : option (list event * machine) :=
  match xs with
  | [] => Some r
  | x :: xs => match mdo E native x (snd r) with Some (e, m) => mscript E native xs (fst r ++ e, m) | None => None end
  end.
Lemma mscript_run E native m0 xs : env_ok E -> native_ok E native -> forall log m log' m', in_order E native m -> mrun E native m0 log m -> mscript E native xs (log, m) = Some (log', m') ->
  mrun E native m0 log' m'.
Proof.
  intros HE Hna. induction xs as [|x xs IH]; intros log m log' m' Hi Hr H; cbn [mscript fst snd] in H; [by injection H as <- <-|].
  destruct (mdo E native x m) as [[e m1]|] eqn:H1; [|discriminate H]. pose proof (mdo_ok _ _ _ _ _ _ HE Hna Hi H1) as Hs.
  exact (IH _ _ _ _ (mstep_in_order _ _ _ _ _ Hs Hi) (mrun_snoc _ _ _ _ _ _ _ Hr Hs) H).
Qed.

(** A token, its accounts and a price feed in one transaction; Lockup initialized; two streams created in one transaction; two
    withdrawals in one; a cancellation and a renouncement in one. *)
Definition setup_ops : list outside_op :=
  [OLamports kOther (10000000000 - 5000 - 8157120);
   OLamports kToken 1461600; OInitMint kToken SplToken 6 (Some kOther) None; OLamports kFeed 2616960; OForeign kFeed (Some feed0);
   OLamports aSender 2039280; OCreateAta aSender SplToken kToken kSender false; OLamports aOther 2039280; OCreateAta aOther SplToken kToken kOther false;
   OMintTo SplToken kToken aSender kOther 100000].
Definition setup_lens : gmap key Z := list_to_map [(kToken, 82); (kFeed, 248); (aSender, 165); (aOther, 165)].
Definition tx_of (payer : key) (fee : Z) (l : list any_ix) : tx := Tx payer fee [payer] (l ≫= writable_of) (map (IOurs []) l).
Definition mscript1 : list mcmd :=
  [MClock 1000; MTx (Tx kOther 5000 [kOther; kToken; kFeed] [kToken; kFeed; aSender; aOther] [IOutside [] setup_ops setup_lens]);
   MTx (tx_of kOther 5000 [IL (LInitialize init_accs kCollector kOracle kFeed)]);
   MTx (tx_of kSender 5000 [IL (LCreateTs (create_for 1) dep1); IL (LCreateDur (create_for 2) dur2)]);
   MClock 1400;
   MTx (tx_of kRecipient 5000 [IL (LWithdraw (withdraw_to 1 kRecipient) 150); IL (LWithdrawMax (withdraw_to 1 kOther))]);
   MClock 1600; MTx (tx_of kSender 5000 [IL (LCancel (cancel_of 1)); IL (LRenounce (renounce_of 2))])].
Definition mrun1 : option (list event * machine) := mscript E0 kNative mscript1 ([], start lam0 0).
(** A third stream, the fee chosen so that [left] lamports remain after the rents. *)
Definition third (left : Z) (m : machine) : tx := tx_of kSender (lam (world_of m) kSender - 25486000 - left) [IL (LCreateTs (create_for 3) dep3)].
Definition has_stream (m : machine) (k : key) : bool := match wdat (world_of m) !! k with Some (DStream _) => true | _ => false end.
Definition mrun1_check (x : option (list event * machine)) : bool :=
  match x with
  | Some (log, m) => (Z.of_nat (length log) =? 6) && has_stream m (kStream kSender 1) && has_stream m (kStream kSender 2) &&
      negb (has_stream m (kStream kSender 3)) &&
      forallb (fun n => match mdo E0 kNative (MTx (third n m)) m with
        | Some (evs, m') => has_stream m' (kStream kSender 3) && (lam (world_of m') kSender =? n) | None => false end) [0; 890880] &&
      fee_ok E0 (third 1000 m) m && outsiders_check E0 ([kSender] ++ []) &&
      match our_run E0 [kSender] [([], IL (LCreateTs (create_for 3) dep3))] (charge (third 1000 m) m) with
      | Ok (m2, _) => (lam (world_of m2) kSender =? 1000) && (len_of m2 kSender =? 0) | Err _ => false end
  | None => false
  end.
Lemma mrun1_checked : mrun1_check mrun1 = true.
Proof. vm_compute. reflexivity. Qed.
Lemma E0_rent : rent_real E0.
Proof. split; [|intros m; vm_compute; discriminate]. intros n Hn. change (rent_min E0 n) with (Z.max 0 ((n + 128) * 6960)). lia. Qed.
Lemma kNative_ok : native_ok E0 kNative.
Proof. split; vm_compute; reflexivity. Qed.
Lemma start_lam0 : start_ok E0 lam0 0.
Proof.
  assert (forall k, lam (on (empty_chain lam0 0)) k = 0 \/ lam (on (empty_chain lam0 0)) k = 10000000000) as Hk.
  { intros k. unfold lam, empty_chain. cbn [on wlam]. destruct (lam0 !! k) as [z|] eqn:Hz; [right|by left]. cbn [default].
    apply elem_of_list_to_map_2 in Hz. repeat (apply elem_of_cons in Hz as [Hz|Hz]; [by injection Hz as _ ->|]). by apply elem_of_nil in Hz. }
  split; [split|].
  - intros k. destruct (Hk k); lia.
  - vm_compute. discriminate.
  - intros k. change (rent_min E0 0) with (890880). destruct (Hk k); lia.
Qed.
(** The third stream is created if nothing, or if enough, is left; with 1000 lamports left the instruction itself succeeds, but
    whatever the runtime does with the transaction, nothing is created and the log does not grow. *)
Example C74_example : exists log m, mrun E0 kNative (start lam0 0) log m /\ start_ok E0 lam0 0 /\ rent_real E0 /\ length log = 6%nat /\
  has_stream m (kStream kSender 1) = true /\
  (forall n, n = 0 \/ n = 890880 -> exists evs m', mrun E0 kNative (start lam0 0) (log ++ evs) m' /\ has_stream m' (kStream kSender 3) = true) /\
  fee_ok E0 (third 1000 m) m = true /\
  is_ok (our_run E0 [kSender] [([], IL (LCreateTs (create_for 3) dep3))] (charge (third 1000 m) m)) = true /\
  (forall evs m', processed E0 kNative (third 1000 m) m evs m' -> evs = [] /\ has_stream m' (kStream kSender 3) = false).
Proof.
  pose proof mrun1_checked as H. assert (mrun1 = mscript E0 kNative mscript1 ([], start lam0 0)) as Hrun by reflexivity.
  revert H Hrun. generalize mrun1. intros [[log m]|] H; [|discriminate H]. unfold mrun1_check in H. intros Hrun.
  apply andb_prop in H as [[[[[[[HA HB]%andb_prop HC]%andb_prop HD]%andb_prop HE]%andb_prop HF]%andb_prop HG]%andb_prop HH].
  pose proof (mscript_run _ _ _ _ E0_ok kNative_ok _ _ _ _ (start_in_order _ _ _ _ start_lam0) (mrun_nil _ _ _) (eq_sym Hrun)) as Hr.
  exists log, m. split; [exact Hr|]. split; [exact start_lam0|]. split; [exact E0_rent|]. split; [apply Z.eqb_eq in HA; lia|]. split; [exact HB|]. split; [|split; [exact HF|]].
  - intros n Hn. rewrite forallb_forall in HE. specialize (HE n). destruct (mdo E0 kNative (MTx (third n m)) m) as [[evs m']|] eqn:Hm.
    + assert (In n [0; 890880]) as Hin by (destruct Hn as [->| ->]; [left|right; left]; reflexivity). apply HE in Hin. apply andb_prop in Hin as [Hst _].
      exists evs, m'. split; [|exact Hst]. exact (mrun_snoc _ _ _ _ _ _ _ Hr (mdo_ok _ _ _ _ _ _ E0_ok kNative_ok (mrun_in_order _ _ _ _ _ _ start_lam0 Hr) Hm)).
    + assert (In n [0; 890880]) as Hin by (destruct Hn as [->| ->]; [left|right; left]; reflexivity). apply HE in Hin. discriminate Hin.
  - destruct (our_run E0 [kSender] [([], IL (LCreateTs (create_for 3) dep3))] (charge (third 1000 m) m)) as [[m2 e2]|] eqn:Hx; [|discriminate HH].
    split; [reflexivity|]. intros evs m' Hp. apply andb_prop in HH as [Hl%Z.eqb_eq Hn%Z.eqb_eq].
    assert (forall x i, (x, i) ∈ [([] : list key, IL (LCreateTs (create_for 3) dep3))] -> outsiders E0 (tx_signers (third 1000 m) ++ x)) as Hsg.
    { intros x i Hin. apply elem_of_list_singleton in Hin. injection Hin as -> ->. exact (outsiders_from_check _ _ HG). }
    destruct (C74_outcome E0 kNative lam0 0 log m (third 1000 m) [([], IL (LCreateTs (create_for 3) dep3))] E0_ok E0_rent kNative_ok start_lam0 Hr HF eq_refl Hsg evs m' Hp)
      as [[Hrun2 Hex]|(-> & Hdat & _)].
    + exfalso. change (tx_signers (third 1000 m)) with [kSender] in Hrun2. rewrite Hx in Hrun2. injection Hrun2 as <- <-. specialize (Hex kSender).
      rewrite Hl, Hn in Hex. clear - Hex. change (rent_min E0 0) with 890880 in Hex. lia.
    + split; [reflexivity|]. unfold has_stream in *. rewrite Hdat. apply negb_true_iff in HD. exact HD.
Qed.

(** Wrapped SOL: the sender wraps 1000 lamports and streams them; the recipient withdraws 150 and unwraps them into lamports. *)
Definition aNative (o : key) : key := ata o kNative SplToken.
Definition vNative : key := ata (kStream kSender 1) kNative SplToken.
Definition wrap_ops : list outside_op :=
  [OLamports kOther (10000000000 - 5000 - 4078560); OLamports kNative 1461600; OInitMint kNative SplToken 9 None None;
   OLamports kFeed 2616960; OForeign kFeed (Some feed0);
   OLamports kSender (10000000000 - 2039280 - 1000); OLamports (aNative kSender) (2039280 + 1000);
   OCreateAta (aNative kSender) SplToken kNative kSender false; OSync (aNative kSender) 1000].
Definition wrap_lens : gmap key Z := list_to_map [(kNative, 82); (kFeed, 248); (aNative kSender, 165)].
Definition create_native : create_accs :=
  CreateAccs kSender (aNative kSender) kRecipient kSender kCollData (kEdition kCollMint)
    (kMetadata kCollMint) kCollMint kNative (kNft kSender 1) (ata kRecipient (kNft kSender 1) SplToken)
    (kStream kSender 1) vNative (kEdition (kNft kSender 1)) (kMetadata (kNft kSender 1)) SplToken SplToken.
Definition withdraw_native : withdraw_accs :=
  WithdrawAccs kRecipient kRecipient kRecipient (aNative kRecipient) kTreasury kNative
    (ata kRecipient (kNft kSender 1) SplToken) (kStream kSender 1) vNative (kNft kSender 1) kOracle kFeed SplToken SplToken.
Definition mscript2 : list mcmd :=
  [MClock 1000; MTx (Tx kOther 5000 [kOther; kSender; kNative; kFeed] [kSender; kNative; kFeed; aNative kSender] [IOutside [] wrap_ops wrap_lens]);
   MTx (tx_of kOther 5000 [IL (LInitialize init_accs kCollector kOracle kFeed)]);
   MTx (tx_of kSender 5000 [IL (LCreateTs create_native dep1)]);
   MClock 1400; MTx (tx_of kRecipient 5000 [IL (LWithdraw withdraw_native 150)])].
Definition mrun2 : option (list event * machine) := mscript E0 kNative mscript2 ([], start lam0 0).
Definition unwrap (m : machine) : tx :=
  Tx kRecipient 5000 [kRecipient] [aNative kRecipient]
    [IOutside [] [OClose (aNative kRecipient) kRecipient; OLamports kRecipient (lam (world_of m) kRecipient - 5000 + 2039280 + 150);
                  OLamports (aNative kRecipient) 0] (delete (aNative kRecipient) (lens m))].
Definition native_in (m : machine) (k : key) : Z := match wdat (world_of m) !! k with Some (DToken t) => t_amount t | _ => 0 end.
Definition mrun2_check (x : option (list event * machine)) : bool :=
  match x with
  | Some (log, m) => (Z.of_nat (length log) =? 2) && (native_in m vNative =? 850) && (native_in m (aNative kRecipient) =? 150) &&
      (total_balance (world_of m) kNative =? 1000) &&
      match mdo E0 kNative (MTx (unwrap m)) m with
      | Some (evs, m') => (Z.of_nat (length evs) =? 0) && (lam (world_of m') kRecipient =? lam (world_of m) kRecipient - 5000 + 2039280 + 150) &&
          (native_in m' vNative =? 850) && (total_balance (world_of m') kNative =? 850)
      | None => false end
  | None => false
  end.
Lemma mrun2_checked : mrun2_check mrun2 = true.
Proof. vm_compute. reflexivity. Qed.
Example C74_wrapped_example : exists log m m', mrun E0 kNative (start lam0 0) log m /\ mrun E0 kNative (start lam0 0) log m' /\ length log = 2%nat /\
  native_in m (aNative kRecipient) = 150 /\ native_in m vNative = 850 /\ native_in m' vNative = 850 /\ total_balance (world_of m') kNative = 850 /\
  lam (world_of m') kRecipient = lam (world_of m) kRecipient - 5000 + 2039280 + 150.
Proof.
  pose proof mrun2_checked as H. assert (mrun2 = mscript E0 kNative mscript2 ([], start lam0 0)) as Hrun by reflexivity.
  revert H Hrun. generalize mrun2. intros [[log m]|] H; [|discriminate H]. unfold mrun2_check in H. intros Hrun.
  apply andb_prop in H as [[[[HA HB]%andb_prop HC]%andb_prop HD]%andb_prop HE].
  pose proof (mscript_run _ _ _ _ E0_ok kNative_ok _ _ _ _ (start_in_order _ _ _ _ start_lam0) (mrun_nil _ _ _) (eq_sym Hrun)) as Hr.
  destruct (mdo E0 kNative (MTx (unwrap m)) m) as [[evs m']|] eqn:Hm; [|discriminate HE].
  apply andb_prop in HE as [[[H1%Z.eqb_eq H2%Z.eqb_eq]%andb_prop H3%Z.eqb_eq]%andb_prop H4%Z.eqb_eq].
  apply Z.eqb_eq in HA, HB, HC. exists log, m, m'. split; [exact Hr|]. split.
  { destruct evs as [|e evs]; [|clear - H1; cbn [length] in H1; lia]. rewrite <- (app_nil_r log).
    exact (mrun_snoc _ _ _ _ _ _ _ Hr (mdo_ok _ _ _ _ _ _ E0_ok kNative_ok (mrun_in_order _ _ _ _ _ _ start_lam0 Hr) Hm)). }
  split; [clear - HA; lia|]. split; [exact HC|]. split; [exact HB|]. split; [exact H3|]. split; [exact H4|exact H2].
Qed.

Print Assumptions C74_in_order.
Print Assumptions C74_history.
Print Assumptions C74_accepted.
Print Assumptions C74_outcome.
