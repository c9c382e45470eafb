(** Every instruction moves exactly its tokens: the token ledger, per instruction and along histories. *)
From Verif Require Import PropBooks PropLive PropConsent ToyRun Lockup.
Local Opaque find_program_address ata_address create_program_address nft_name.

(** ** The token bill of an instruction *)

(** A transfer of [n] units, of which [received] arrive (all of them, if the token is plain); to the same account: nothing. *)
Definition transfer (E : env) (w : world) (mintk from to : key) (n : Z) : list (key * Z) :=
  if from =? to then [] else [(from, - n); (to, received E mintk from to (wclock w) n)].
Definition or_none {A} (r : res Z) (f : Z -> list A) : list A := match r with Ok x => f x | Err _ => [] end.

(** What an instruction does to token balances, from its accounts and arguments and what the views show. *)
Definition token_bill (E : env) (w : world) (i : any_ix) : list (key * Z) :=
  match i with
  | IL (LInitialize a _ _ _) => [(ia_ata a, 1)]
  | IL (LCreateTs a p) => (ca_recipient_nft_ata a, 1) :: transfer E w (ca_deposit_mint a) (ca_creator_ata a) (ca_vault a) (p_deposit p)
  | IL (LCreateDur a q) => (ca_recipient_nft_ata a, 1) :: transfer E w (ca_deposit_mint a) (ca_creator_ata a) (ca_vault a) (q_deposit q)
  | IL (LCancel a) => or_none (refundable_amount_of E (xa_stream a) (xa_nft_mint a) w) (fun r =>
      transfer E w (xa_mint a) (xa_vault a) (xa_sender_ata a) r)
  | IL (LWithdraw a n) => transfer E w (wa_mint a) (wa_vault a) (wa_dest a) n
  | IL (LWithdrawMax a) => or_none (withdrawable_amount_of E (wa_stream a) (wa_nft_mint a) w) (fun n =>
      transfer E w (wa_mint a) (wa_vault a) (wa_dest a) n)
  | IL (LRenounce _) | IL (LCollectFees _) => []
  | IM (MClaim a _ n _) => transfer E w (la_mint a) (la_vault a) (la_recipient_ata a) n
  | IM (MClawback a n) => transfer E w (ba_mint a) (ba_vault a) (ba_recipient_ata a) n
  | IM (MInitialize _ _ _ _ _) | IM (MCreateCampaign _ _) | IM (MCollectFees _) => []
  end.
(** What a bill does to the balance of [k]. *)
Definition change (l : list (key * Z)) (k : key) : Z := fold_right (fun '(j, n) acc => (if k =? j then n else 0) + acc) 0 l.

(** The token accounts an instruction may open: address, owner, mint and token program. *)
Definition token_accounts (i : any_ix) : list (key * key * key * tprog) :=
  match i with
  | IL (LInitialize a _ _ _) => [(ia_ata a, ia_treasury a, ia_mint a, ia_nft_tp a)]
  | IL (LCreateTs a _) | IL (LCreateDur a _) =>
      [(ca_recipient_nft_ata a, ca_recipient a, ca_nft_mint a, ca_nft_tp a); (ca_vault a, ca_stream a, ca_deposit_mint a, ca_deposit_tp a)]
  | IL (LCancel a) => [(xa_sender_ata a, xa_sender a, xa_mint a, xa_tp a)]
  | IL (LWithdraw a _) | IL (LWithdrawMax a) => [(wa_dest a, wa_withdrawal_recipient a, wa_mint a, wa_tp a)]
  | IL (LRenounce _) | IL (LCollectFees _) => []
  | IM (MCreateCampaign a _) => [(na_vault a, na_campaign a, na_mint a, na_tp a)]
  | IM (MClaim a _ _ _) => [(la_recipient_ata a, la_recipient a, la_mint a, la_tp a)]
  | IM (MClawback a _) => [(ba_recipient_ata a, ba_recipient a, ba_mint a, ba_tp a)]
  | IM (MInitialize _ _ _ _ _) | IM (MCollectFees _) => []
  end.

(** ** Proofs *)
Definition bal (D : gmap key adata) (k : key) : Z := match D !! k with Some (DToken t) => t_amount t | _ => 0 end.
Definition is_tok (d : option adata) : bool := match d with Some (DToken _) => true | _ => false end.

Lemma bal_other D j d k : is_token d = false -> is_tok (D !! j) = false -> bal (<[j:=d]> D) k = bal D k.
Proof.
  intros Hd Hj. unfold bal. destruct (decide (j = k)) as [->|Hn]; [|rewrite lookup_insert_ne by exact Hn; reflexivity].
  rewrite lookup_insert. destruct d; try discriminate Hd; destruct (D !! k) as [[]|]; try discriminate Hj; reflexivity.
Qed.
Lemma bal_token D j t k : bal (<[j:=DToken t]> D) k = bal D k + (if k =? j then t_amount t - bal D j else 0).
Proof.
  unfold bal. destruct (Z.eqb_spec k j) as [->|Hn]; [rewrite lookup_insert; lia|rewrite lookup_insert_ne by congruence; lia].
Qed.
Lemma is_tok_none (D : gmap key adata) j : D !! j = None -> is_tok (D !! j) = false.
Proof. intros ->. reflexivity. Qed.
Lemma is_tok_some (D : gmap key adata) j d : D !! j = Some d -> is_token d = false -> is_tok (D !! j) = false.
Proof. intros -> H. destruct d; [..]; try reflexivity. discriminate H. Qed.

Lemma payout_bal E w D own d0 newd vault dest vt dt amount tp mintk owner auth w' k :
  payout_facts E w D own newd vault dest vt dt amount tp mintk owner auth w' ->
  D !! vault = Some (DToken vt) -> D !! own = Some d0 -> is_token d0 = false -> is_token newd = false ->
  (D !! dest = Some (DToken dt) \/ (D !! dest = None /\ t_amount dt = 0)) ->
  bal (wdat w') k = bal D k + change (transfer E w mintk vault dest amount) k.
Proof.
  intros F Hv Ho Hd0 Hn Hdest. rewrite (ds_dat _ _ _ (pf_step _ _ _ _ _ _ _ _ _ _ _ _ _ _ _ F)). unfold payout, transfer.
  assert (is_tok (D !! own) = false) as Ho' by (exact (is_tok_some _ _ _ Ho Hd0)).
  destruct (decide (vault = dest)) as [->|Hne].
  - rewrite Z.eqb_refl. rewrite bal_other by assumption. cbn. lia.
  - rewrite (proj2 (Z.eqb_neq vault dest)) by exact Hne.
    assert (own <> vault) as H1 by (intros ->; rewrite Hv in Ho; injection Ho as <-; discriminate Hd0).
    assert (own <> dest) as H2.
    { intros ->. destruct Hdest as [H|[H _]]; rewrite Ho in H; [injection H as ->; discriminate Hd0|discriminate H]. }
    rewrite !bal_token, !bal_other by assumption.
    cbn [t_amount with_amount]. rewrite (proj2 (Z.eqb_neq dest vault)) by congruence.
    assert (bal D vault = t_amount vt) as -> by (unfold bal; rewrite Hv; reflexivity).
    assert (bal D dest = t_amount dt) as -> by (unfold bal; destruct Hdest as [H|[H H']]; rewrite H; [reflexivity|congruence]).
    unfold change. cbn [fold_right]. destruct (k =? vault), (k =? dest); lia.
Qed.

Lemma lockup_bill E sg ix w w' evs k : env_ok E -> reachable E w -> lockup_exec E sg ix w = Ok (w', evs) ->
  bal (wdat w') k = bal (wdat w) k + change (token_bill E w (IL ix)) k.
Proof.
  intros HE Hr Hx. pose proof (lockup_exec_effect _ _ _ _ _ _ Hx) as [_ Heff].
  destruct Heff as [a f p c tb nb w' F|ix a p ct nc cm dm sb s1 nm c0 c1 w' evs Hix Hargs F|a s1 st w' evs Hsi Hse Hs Ha Hg Hc Hl -> ->|a mt s1 vt dt st w' evs F
      |ix a am tr mt nt s1 s' vt dt fee wd w' evs Hix Ham F|a tr n w' Hsi Htr Hc Ha Hn Hp Hmv].
  - cbn [token_bill]. destruct F. rewrite !Forall_cons in if_fresh. destruct if_fresh as (N1 & N2 & N3 & N4 & N5 & N6 & _). nodup_neq if_distinct.
    rewrite (ds_dat _ _ _ if_step).
    rewrite bal_other; [|reflexivity|apply is_tok_none; mlook; assumption].
    rewrite bal_other; [|reflexivity|apply is_tok_none; mlook; assumption].
    rewrite bal_token. cbn [t_amount].
    assert (bal (<[ia_mint a:=DMint (Mint (ia_nft_tp a) 1 0 (Some (ia_edition a)) (Some (ia_edition a)))]>
      (<[ia_nft_collection_data a:=DNftCollection (NftCollection 0 nb)]> (<[ia_treasury a:=DLockupTreasury (Treasury tb f p c)]> (wdat w)))) (ia_ata a) = 0) as ->
      by (unfold bal; mlook; rewrite N4; reflexivity).
    rewrite bal_other; [|reflexivity|apply is_tok_none; mlook; assumption].
    rewrite bal_other; [|reflexivity|apply is_tok_none; mlook; assumption].
    rewrite bal_other; [|reflexivity|apply is_tok_none; mlook; assumption].
    unfold change. cbn [fold_right]. destruct (k =? ia_ata a); lia.
  - assert (token_bill E w (IL ix) = (ca_recipient_nft_ata a, 1) :: transfer E w (ca_deposit_mint a) (ca_creator_ata a) (ca_vault a) (p_deposit p)) as ->
      by (destruct Hix as [-> | (q & -> & ->)]; reflexivity).
    pose proof (create_neq _ _ _ _ _ _ _ _ _ _ _ _ _ _ _ _ F) as Hnd. pose proof (ds_dat _ _ _ (rf_step _ _ _ _ _ _ _ _ _ _ _ _ _ _ _ _ F)) as Hd. nodup_neq Hnd.
    destruct F. destruct rf_coll_md_kind as (u1 & u2 & u3 & u4 & u5 & u6 & -> & ->). rewrite Hd. unfold create_map.
    assert (deposited (s_amounts s1) = p_deposit p) as -> by (rewrite rf_s; reflexivity).
    rewrite (bal_token _ (ca_vault a)). cbn [t_amount].
    match goal with |- context [bal ?D (ca_vault a)] => assert (bal D (ca_vault a) = 0) as -> by (unfold bal; mlook; rewrite rf_fresh_vault; reflexivity) end.
    rewrite (bal_token _ (ca_creator_ata a)). cbn [t_amount with_amount].
    match goal with |- context [bal ?D (ca_creator_ata a)] => assert (bal D (ca_creator_ata a) = t_amount ct) as -> by (unfold bal; mlook; rewrite rf_creator_ata; reflexivity) end.
    rewrite bal_other; [|reflexivity|unfold is_tok; mlook; rewrite rf_nc; reflexivity].
    rewrite bal_other; [|reflexivity|unfold is_tok; mlook; rewrite rf_coll_md; reflexivity].
    rewrite bal_other; [|reflexivity|apply is_tok_none; mlook; assumption].
    rewrite bal_other; [|reflexivity|apply is_tok_none; mlook; assumption].
    rewrite bal_other; [|reflexivity|apply is_tok_none; mlook; assumption].
    rewrite (bal_token _ (ca_recipient_nft_ata a)). cbn [t_amount].
    match goal with |- context [bal ?D (ca_recipient_nft_ata a)] => assert (bal D (ca_recipient_nft_ata a) = 0) as -> by (unfold bal; mlook; rewrite rf_fresh_nft_ata; reflexivity) end.
    rewrite bal_other; [|reflexivity|apply is_tok_none; assumption].
    unfold transfer. rewrite (proj2 (Z.eqb_neq (ca_creator_ata a) (ca_vault a))) by congruence.
    unfold change. cbn [fold_right]. destruct (k =? ca_vault a), (k =? ca_creator_ata a), (k =? ca_recipient_nft_ata a); lia.
  - cbn [token_bill]. rewrite wdat_set_dat. rewrite bal_other; [cbn; lia|reflexivity|exact (is_tok_some _ _ _ Hs eq_refl)].
  - destruct (C18_refundable_is_refund _ _ _ _ _ _ HE Hr Hx) as (r & q & Hre & _ & _ & He & _).
    cbn [token_bill]. rewrite Hre. cbn [or_none]. destruct F. rewrite cf_evs in He. injection He as _ <-.
    apply (payout_bal _ _ _ _ _ _ _ _ _ _ _ _ _ _ _ _ k cf_pay cf_vault cf_stream eq_refl eq_refl).
    destruct (pf_dest _ _ _ _ _ _ _ _ _ _ _ _ _ _ _ cf_pay) as [H|[H ->]]; [left; exact H|right; split; [exact H|reflexivity]].
  - pose proof F as F0. destruct F.
    assert (token_bill E w (IL ix) = transfer E w (wa_mint a) (wa_vault a) (wa_dest a) am) as ->.
    { destruct Hix as [-> | [-> ->]]; [reflexivity|]. cbn [token_bill].
      pose proof (withdraw_facts_outcome _ _ _ _ _ _ _ _ _ _ _ _ _ _ _ _ HE Hr Ham F0) as Ho.
      rewrite (wo_view _ _ _ _ _ _ _ _ Ho). reflexivity. }
    apply (payout_bal _ _ _ _ _ _ _ _ _ _ _ _ _ _ _ _ k wf_pay wf_vault wf_stream eq_refl eq_refl).
    destruct (pf_dest _ _ _ _ _ _ _ _ _ _ _ _ _ _ _ wf_pay) as [H|[H ->]]; [left; exact H|right; split; [exact H|reflexivity]].
  - apply move_lamports_ok in Hmv as (Hd & _). rewrite Hd. cbn. lia.
Qed.

Lemma merkle_bill E sg ix w w' evs k : merkle_exec E sg ix w = Ok (w', evs) ->
  bal (wdat w') k = bal (wdat w) k + change (token_bill E w (IM ix)) k.
Proof.
  intros Hx. apply merkle_exec_effect in Hx as [_ Heff].
  destruct Heff as [i t1 f p c1 b w' Hi Ht Hn Hne Hd Hr|a g mt b c1 w' evs Hi Hm Hmp Hf Hn1 Hn2 Hne Hv Hc Hsz Hd ->|a i am pf tr mt c1 vt dt fee w' evs F
    |a am mt c1 vt dt w' evs F|a tr n w' Hc Htr Hcc Hca -> Hnpos Hmv].
  - rewrite (ds_dat _ _ _ Hd). rewrite bal_other; [cbn; lia|reflexivity|exact (is_tok_none _ _ Hn)].
  - rewrite (ds_dat _ _ _ Hd). rewrite bal_other; [|reflexivity|apply is_tok_none; rewrite lookup_insert_ne by congruence; exact Hn1].
    rewrite bal_token. cbn [t_amount]. assert (bal (wdat w) (na_vault a) = 0) as -> by (unfold bal; rewrite Hn2; reflexivity).
    cbn. destruct (k =? na_vault a); lia.
  - destruct F. cbn [token_bill].
    assert (forall x, wdat w !! x <> None -> x <> la_receipt a) as Hne by (intros x H ->; exact (H lf_receipt)).
    rewrite <- (bal_other (wdat w) (la_receipt a) DClaimReceipt k eq_refl (is_tok_none _ _ lf_receipt)).
    apply (payout_bal _ _ _ _ (DCampaign c1) _ _ _ _ _ _ _ _ _ _ _ k lf_pay); [| |reflexivity|reflexivity|].
    + rewrite lookup_insert_ne; [exact lf_vault|]. intros Heq. apply (Hne (la_vault a)); [rewrite lf_vault; discriminate|congruence].
    + rewrite lookup_insert_ne; [exact lf_campaign|]. intros Heq. apply (Hne (la_campaign a)); [rewrite lf_campaign; discriminate|congruence].
    + rewrite lookup_insert_ne by exact lf_receipt_dest.
      destruct (pf_dest _ _ _ _ _ _ _ _ _ _ _ _ _ _ _ lf_pay) as [H|[H ->]]; [left; exact H|right; split; [exact H|reflexivity]].
  - destruct F. cbn [token_bill]. apply (payout_bal _ _ _ _ _ _ _ _ _ _ _ _ _ _ _ _ k bf_pay bf_vault bf_campaign eq_refl eq_refl).
    destruct (pf_dest _ _ _ _ _ _ _ _ _ _ _ _ _ _ _ bf_pay) as [H|[H ->]]; [left; exact H|right; split; [exact H|reflexivity]].
  - apply move_lamports_ok in Hmv as (Hd & _). rewrite Hd. cbn. lia.
Qed.

(** A token account after an instruction: an old one with the same owner, mint, program and frozen flag, or a new one the
    instruction may open. *)
Definition account_before (i : any_ix) (w : world) (k : key) (t' : tokacc) : Prop :=
  (exists t, wdat w !! k = Some (DToken t) /\ t_owner t' = t_owner t /\ t_mint t' = t_mint t /\ t_prog t' = t_prog t /\ t_frozen t' = t_frozen t) \/
  (wdat w !! k = None /\ t_frozen t' = false /\ (k, t_owner t', t_mint t', t_prog t') ∈ token_accounts i).
Lemma before_old i w k t : wdat w !! k = Some (DToken t) -> account_before i w k t.
Proof. intros H. left. exists t. split_and!; first [exact H|reflexivity]. Qed.

Lemma payout_accounts E w D own d0 newd vault dest vt dt amount tp mintk owner auth w' i k t' :
  payout_facts E w D own newd vault dest vt dt amount tp mintk owner auth w' ->
  wdat w !! vault = Some (DToken vt) -> is_token newd = false ->
  (forall t, D !! k = Some (DToken t) -> wdat w !! k = Some (DToken t)) -> wdat w !! own = Some d0 ->
  (dest, owner, mintk, tp) ∈ token_accounts i -> wdat w' !! k = Some (DToken t') -> account_before i w k t'.
Proof.
  intros F Hv Hn HD Ho Hin. rewrite (ds_dat _ _ _ (pf_step _ _ _ _ _ _ _ _ _ _ _ _ _ _ _ F)). unfold payout. intros Hk.
  assert (forall j, <[own:=newd]> D !! j = Some (DToken t') -> D !! j = Some (DToken t')) as Hown.
  { intros j [[-> H]|[_ H]]%lookup_insert_Some; [subst newd; discriminate Hn|exact H]. }
  destruct (decide (vault = dest)).
  - apply before_old, HD, Hown, Hk.
  - apply lookup_insert_Some in Hk as [[<- [= <-]]|[_ Hk]].
    + cbn [with_amount]. destruct F as [Fd Fo Fm Fp _ _ _ _ _ _ _]. destruct Fd as [H|[H E0]].
      * left. exists dt. split_and!; first [exact H|reflexivity].
      * right. split; [exact H|]. split; [rewrite E0; reflexivity|]. subst owner mintk tp. exact Hin.
    + apply lookup_insert_Some in Hk as [[<- [= <-]]|[_ Hk]].
      * left. exists vt. split_and!; first [exact Hv|reflexivity].
      * apply before_old, HD, Hown, Hk.
Qed.

Lemma lockup_accounts_kept E sg ix w w' evs k t' : lockup_exec E sg ix w = Ok (w', evs) ->
  wdat w' !! k = Some (DToken t') -> account_before (IL ix) w k t'.
Proof.
  intros Hx. apply lockup_exec_effect in Hx as [_ Heff].
  destruct Heff as [a f p c tb nb w' F|ix a p ct nc cm dm sb s1 nm c0 c1 w' evs Hix Hargs F|a s1 st w' evs Hsi Hse Hs Ha Hg Hc Hl -> ->|a mt s1 vt dt st w' evs F
      |ix a am tr mt nt s1 s' vt dt fee wd w' evs Hix Ham F|a tr n w' Hsi Htr Hc Ha Hn Hp Hmv].
  - destruct F. rewrite !Forall_cons in if_fresh. destruct if_fresh as (N1 & N2 & N3 & N4 & N5 & N6 & _).
    rewrite (ds_dat _ _ _ if_step). intros Hk.
    repeat (apply lookup_insert_Some in Hk as [[<- Hk]|[_ Hk]]; [first [discriminate Hk|injection Hk as <-]|]); [|exact (before_old _ _ _ _ Hk)].
    right. split; [exact N4|]. split; [reflexivity|]. cbn. left.
  - assert (token_accounts (IL ix) = [(ca_recipient_nft_ata a, ca_recipient a, ca_nft_mint a, ca_nft_tp a); (ca_vault a, ca_stream a, ca_deposit_mint a, ca_deposit_tp a)]) as Ht
      by (destruct Hix as [-> | (q & -> & _)]; reflexivity).
    unfold account_before. rewrite Ht. destruct F. destruct rf_coll_md_kind as (u1 & u2 & u3 & u4 & u5 & u6 & -> & ->).
    rewrite (ds_dat _ _ _ rf_step). unfold create_map. intros Hk.
    repeat (apply lookup_insert_Some in Hk as [[<- Hk]|[_ Hk]]; [first [discriminate Hk|injection Hk as <-]|]).
    + right. split; [exact rf_fresh_vault|]. split; [reflexivity|]. cbn. right. left.
    + left. exists ct. split_and!; first [exact rf_creator_ata|reflexivity].
    + right. split; [exact rf_fresh_nft_ata|]. split; [reflexivity|]. cbn. left.
    + left. exists t'. split_and!; first [exact Hk|reflexivity].
  - rewrite wdat_set_dat. intros [[_ H]|[_ H]]%lookup_insert_Some; [discriminate H|exact (before_old _ _ _ _ H)].
  - destruct F. apply (payout_accounts _ _ _ _ _ _ _ _ _ _ _ _ _ _ _ _ _ _ _ cf_pay cf_vault eq_refl (fun t H => H) cf_stream). left.
  - destruct F. apply (payout_accounts _ _ _ _ _ _ _ _ _ _ _ _ _ _ _ _ _ _ _ wf_pay wf_vault eq_refl (fun t H => H) wf_stream).
    destruct Hix as [-> | [-> _]]; left.
  - apply move_lamports_ok in Hmv as (Hd & _). rewrite Hd. apply before_old.
Qed.
Lemma merkle_accounts_kept E sg ix w w' evs k t' : merkle_exec E sg ix w = Ok (w', evs) ->
  wdat w' !! k = Some (DToken t') -> account_before (IM ix) w k t'.
Proof.
  intros Hx. apply merkle_exec_effect in Hx as [_ Heff].
  destruct Heff as [i t1 f p c1 b w' Hi Ht Hn Hne Hd Hr|a g mt b c1 w' evs Hi Hm Hmp Hf Hn1 Hn2 Hne Hv Hc Hsz Hd ->|a i am pf tr mt c1 vt dt fee w' evs F
    |a am mt c1 vt dt w' evs F|a tr n w' Hc Htr Hcc Hca -> Hnpos Hmv].
  - rewrite (ds_dat _ _ _ Hd). intros [[_ H]|[_ H]]%lookup_insert_Some; [discriminate H|exact (before_old _ _ _ _ H)].
  - rewrite (ds_dat _ _ _ Hd). intros [[_ H]|[_ [[<- H]|[_ H]]%lookup_insert_Some]]%lookup_insert_Some; [discriminate H| |exact (before_old _ _ _ _ H)].
    injection H as <-. right. split; [exact Hn2|]. split; [reflexivity|]. left.
  - destruct F. refine (payout_accounts _ _ _ _ _ _ _ _ _ _ _ _ _ _ _ _ _ _ _ lf_pay lf_vault eq_refl _ lf_campaign _).
    + intros t [[_ H]|[_ H]]%lookup_insert_Some; [discriminate H|exact H].
    + left.
  - destruct F. apply (payout_accounts _ _ _ _ _ _ _ _ _ _ _ _ _ _ _ _ _ _ _ bf_pay bf_vault eq_refl (fun t H => H) bf_campaign). left.
  - apply move_lamports_ok in Hmv as (Hd & _). rewrite Hd. apply before_old.
Qed.

(** ** C80 *)

(** Every balance after an instruction is the balance before and the bill. *)
Theorem C80_token_bill : forall E sg i w w' evs, env_ok E -> reachable E w -> exec E sg i w = Ok (w', evs) ->
  forall k, balance w' k = balance w k + change (token_bill E w i) k.
Proof.
  intros E sg i w w' evs HE Hr Hx k. change (bal (wdat w') k = bal (wdat w) k + change (token_bill E w i) k).
  destruct i as [ix|ix]; [exact (lockup_bill _ _ _ _ _ _ k HE Hr Hx)|exact (merkle_bill _ _ _ _ _ _ k Hx)].
Qed.

(** Token accounts stay whose they are and are never closed, and the only new ones are those the instruction names. *)
Theorem C80_token_accounts : forall E sg i w w' evs, env_ok E -> signers_ok E sg -> exec E sg i w = Ok (w', evs) ->
  (forall k t, wdat w !! k = Some (DToken t) -> exists t', wdat w' !! k = Some (DToken t')) /\
  (forall k t', wdat w' !! k = Some (DToken t') -> account_before i w k t').
Proof.
  intros E sg i w w' evs HE Hsg Hx. split.
  - intros k t Hk. destruct i as [ix|ix].
    + destruct (lockup_frame _ _ _ _ _ _ HE Hsg Hx) as (S & F & _). destruct (fr_tokens _ _ _ _ _ F k t Hk) as (t' & H & _). exists t'. exact H.
    + destruct (merkle_frame _ _ _ _ _ _ HE Hsg Hx) as (S & F & _). destruct (fr_tokens _ _ _ _ _ F k t Hk) as (t' & H & _). exists t'. exact H.
  - intros k t'. destruct i as [ix|ix]; [exact (lockup_accounts_kept _ _ _ _ _ _ k t' Hx)|exact (merkle_accounts_kept _ _ _ _ _ _ k t' Hx)].
Qed.

(** Along a run through the worlds [ws]: what the instructions of the two programs moved into [k], and what others did. *)
Definition ix_of (a : action) : option any_ix :=
  match a with ALockup _ ix => Some (IL ix) | AMerkle _ ix => Some (IM ix) | AOthers => None end.
Fixpoint moved (E : env) (k : key) (tr : trace) (ws : list world) : Z :=
  match tr, ws with
  | (a, _) :: tr', w :: ws' => match ix_of a with Some i => change (token_bill E w i) k | None => 0 end + moved E k tr' ws'
  | _, _ => 0
  end.
Fixpoint given (k : key) (tr : trace) (ws : list world) : Z :=
  match tr, ws with
  | (a, _) :: tr', w :: (w' :: _) as ws' =>
      match ix_of a with Some _ => 0 | None => balance w' k - balance w k end + given k tr' ws'
  | _, _ => 0
  end.

Lemma moved_snoc E k tr ws w a evs w' : length ws = length tr ->
  moved E k (tr ++ [(a, evs)]) ((ws ++ [w]) ++ [w']) =
  moved E k tr (ws ++ [w]) + match ix_of a with Some i => change (token_bill E w i) k | None => 0 end.
Proof.
  revert ws. induction tr as [|[a0 e0] tr IH]; intros ws Hl.
  - destruct ws; [|discriminate Hl]. cbn [app moved]. lia.
  - destruct ws as [|w1 ws]; [discriminate Hl|]. injection Hl as Hl. specialize (IH ws Hl). cbn [app moved] in *. lia.
Qed.
Lemma given_snoc k tr ws w a evs w' : length ws = length tr ->
  given k (tr ++ [(a, evs)]) ((ws ++ [w]) ++ [w']) =
  given k tr (ws ++ [w]) + match ix_of a with Some _ => 0 | None => balance w' k - balance w k end.
Proof.
  revert ws. induction tr as [|[a0 e0] tr IH]; intros ws Hl.
  - destruct ws; [|discriminate Hl]. cbn [app given]. lia.
  - destruct ws as [|w1 ws]; [discriminate Hl|]. injection Hl as Hl. specialize (IH ws Hl).
    destruct ws as [|w2 ws]; cbn [app given] in *; lia.
Qed.

(** The balance of any account at any moment: what it was, what the two programs moved, and what others did. *)
Theorem C80_ledger : forall E C w0 tr ws w k, env_ok E -> reachable E w0 -> passed E C w0 tr ws w ->
  balance w k = balance w0 k + moved E k tr ws + given k tr ws.
Proof.
  intros E C w0 tr ws w k HE Hre Hp. induction Hp as [|tr ws w a evs w' Hp IH Hs]; [cbn; lia|].
  destruct (passed_shape _ _ _ _ _ _ Hp) as (ws0 & -> & Hlen). rewrite moved_snoc, given_snoc by exact Hlen.
  assert (reachable E w) as Hr.
  { apply (reachable_later _ _ _ Hre). exists tr. exact (run_any _ _ _ _ _ (passed_run _ _ _ _ _ _ Hp)). }
  destruct Hs as [sg ix evs w' Hsg Hx|sg ix evs w' Hsg Hx|w' Ho Hc]; cbn [ix_of].
  - pose proof (C80_token_bill E sg (IL ix) w w' evs HE Hr Hx k). lia.
  - pose proof (C80_token_bill E sg (IM ix) w w' evs HE Hr Hx k). lia.
  - lia.
Qed.

(** Others can only add to the vaults. *)
Theorem C80_vaults : forall E C w0 tr ws w k t, env_ok E -> reachable E w0 -> passed E C w0 tr ws w ->
  wdat w0 !! k = Some (DToken t) -> pda_of E PLockup (t_owner t) = true \/ pda_of E PMerkle (t_owner t) = true ->
  ata_address E (t_owner t) (t_mint t) (t_prog t) = Ok k -> plain E (t_mint t) = true -> 0 <= given k tr ws.
Proof.
  intros E C w0 tr ws w k t HE Hre Hp Hk Hpda Hata Hpl.
  enough ((exists t', wdat w !! k = Some (DToken t') /\ t_owner t' = t_owner t /\ t_mint t' = t_mint t /\ t_prog t' = t_prog t) /\ 0 <= given k tr ws) as [_ H] by exact H.
  induction Hp as [|tr ws w a evs w' Hp IH Hs]; [split; [exists t; split_and!; first [exact Hk|reflexivity]|cbn; lia]|].
  destruct IH as ((t1 & K1 & O1 & M1 & P1) & IH). destruct (passed_shape _ _ _ _ _ _ Hp) as (ws0 & -> & Hlen). rewrite given_snoc by exact Hlen.
  assert (forall i sg, exec E sg i w = Ok (w', evs) -> signers_ok E sg ->
    exists t', wdat w' !! k = Some (DToken t') /\ t_owner t' = t_owner t /\ t_mint t' = t_mint t /\ t_prog t' = t_prog t) as Hx.
  { intros i sg Hx Hsg. destruct (C80_token_accounts _ _ _ _ _ _ HE Hsg Hx) as [A B]. destruct (A _ _ K1) as [t' K']. exists t'. split; [exact K'|].
    destruct (B _ _ K') as [(t2 & K2 & O2 & M2 & P2 & _)|[K2 _]]; rewrite K1 in K2; [injection K2 as <-; split_and!; congruence|discriminate K2]. }
  destruct Hs as [sg ix evs w' Hsg Hy|sg ix evs w' Hsg Hy|w' Ho Hc]; cbn [ix_of].
  - split; [exact (Hx (IL ix) sg Hy Hsg)|lia].
  - split; [exact (Hx (IM ix) sg Hy Hsg)|lia].
  - rewrite <- O1, <- M1, <- P1 in Hata. rewrite <- O1 in Hpda. rewrite <- M1 in Hpl.
    assert (exists t', wdat w' !! k = Some (DToken t') /\ t_prog t' = t_prog t1 /\ t_mint t' = t_mint t1 /\
      t_owner t' = t_owner t1 /\ (plain E (t_mint t1) = true -> t_amount t1 <= t_amount t')) as (t' & K' & P' & M' & O' & A').
    { destruct Hpda as [H|H]; [exact (u_vault _ _ _ _ (os_lockup _ _ _ Ho) _ _ K1 H Hata)|exact (u_vault _ _ _ _ (os_merkle _ _ _ Ho) _ _ K1 H Hata)]. }
    split; [exists t'; split_and!; congruence|]. specialize (A' Hpl). unfold balance. rewrite K1, K'. lia.
Qed.

(** A withdraw_max to somebody else, a cancel (at 1400) and a claim, with their bills; and a run with a vault that others filled. *)
Example C80_example :
  reachable E0 w3 /\ is_ok (exec E0 [kRecipient] (IL (LWithdrawMax (withdraw_to 1 kOther))) w3) = true /\
  token_bill E0 w3 (IL (LWithdrawMax (withdraw_to 1 kOther))) = [(kVault kSender 1, -425); (ata kOther kToken SplToken, 425)] /\
  is_ok (exec E0 [kSender] (IL (LCancel (cancel_of 1))) w2) = true /\
  map snd (token_bill E0 w2 (IL (LCancel (cancel_of 1)))) = [-638; 638] /\
  token_bill E0 w6 (IM (MClaim (claim_by kOther 1500 0 2 kCollector) 2 200 [nodeAB])) =
    [(kCampVault 1500 0, -200); (ata kCollector kToken SplToken, 200)] /\
  (exists w0 ws, reachable E0 w0 /\ passed E0 any_clock w0 tr7 ws w7) /\
  balance w7 (kCampVault 1500 0) = 200 /\ balance w5 (kCampVault 1500 0) = 1000.
Proof.
  split; [eapply history_reach, w3_hist|]. split; [vm_compute; reflexivity|]. split; [vm_compute; reflexivity|].
  split; [vm_compute; reflexivity|]. split; [vm_compute; reflexivity|]. split; [vm_compute; reflexivity|].
  split; [|split; vm_compute; reflexivity].
  destruct (history_is_via _ _ _ _ (history_any _ _ _ _ w7_hist)) as (ws & w0' & Hg & Hp). exists w0', ws. split; [|exact Hp].
  exists []. exists w0'. split; [exact Hg|apply run_nil].
Qed.
