(** C06, C09 - C13, C22: what one successful Lockup instruction on a stream does. *)
From Verif Require Export Observe PropSchedule.

(** ** C06: what a successful create leaves behind *)

(** The stored record is exactly the parameters, nothing withdrawn or refunded, both flags clear. *)
Record fresh_stream (a : create_accs) (p : create_args) (s : stream_data) : Prop := {
  fs_sender : s_sender s = ca_sender a;
  fs_mint : s_mint s = ca_deposit_mint a;
  fs_salt : s_salt s = p_salt p;
  fs_deposit : deposited (s_amounts s) = p_deposit p;
  fs_start_unlock : start_unlock (s_amounts s) = p_start_unlock p;
  fs_cliff_unlock : cliff_unlock (s_amounts s) = p_cliff_unlock p;
  fs_withdrawn : withdrawn (s_amounts s) = 0;
  fs_refunded : refunded (s_amounts s) = 0;
  fs_times : s_times s = Timestamps (p_cliff p) (p_end p) (p_start p);
  fs_cancelable : s_cancelable s = p_cancelable p;
  fs_depleted : s_depleted s = false;
  fs_canceled : s_canceled s = false }.

Record create_outcome (E : env) (sg : list key) (a : create_accs) (p : create_args) (w w' : world) : Prop := {
  (* the creator signed and pays exactly the deposit from their own account *)
  co_signed : ca_creator a ∈ sg;
  co_payer : exists t, wdat w !! ca_creator_ata a = Some (DToken t) /\ t_owner t = ca_creator a /\ t_mint t = ca_deposit_mint a;
  co_paid : balance w' (ca_creator_ata a) = balance w (ca_creator_ata a) - p_deposit p;
  (* into a vault that is new, owned by the stream, and holds exactly what the token's rules let through: the deposit,
     if the token is plain *)
  co_vault_new : wdat w !! ca_vault a = None;
  co_vault : wdat w' !! ca_vault a = Some (DToken (TokAcc (ca_deposit_tp a) (ca_deposit_mint a) (ca_stream a)
      (received E (ca_deposit_mint a) (ca_creator_ata a) (ca_vault a) (wclock w) (p_deposit p)) false));
  co_vault_plain : plain E (ca_deposit_mint a) = true -> balance w' (ca_vault a) = p_deposit p;
  co_vault_addr : ata_address E (ca_stream a) (ca_deposit_mint a) (ca_deposit_tp a) = Ok (ca_vault a);
  (* a new stream at the derived address with exactly the given parameters *)
  co_stream_new : wdat w !! ca_stream a = None;
  co_stream : exists s, stream_view E (ca_stream a) (ca_nft_mint a) w' = Ok s /\ stream_at E w' (ca_stream a) (ca_nft_mint a) s /\
      fresh_stream a p s;
  (* one NFT, held by the recipient, whose mint nobody can mint from again *)
  co_nft_new : wdat w !! ca_nft_mint a = None /\ wdat w !! ca_recipient_nft_ata a = None;
  co_nft : exists m au b, wdat w' !! ca_nft_mint a = Some (DMint m) /\ m_supply m = 1 /\ m_decimals m = 0 /\
      m_authority m = Some au /\ find_program_address E PMetadata (edition_seeds E (ca_nft_mint a)) = Ok (au, b);
  co_holder : wdat w' !! ca_recipient_nft_ata a = Some (DToken (TokAcc (ca_nft_tp a) (ca_nft_mint a) (ca_recipient a) 1 false)) /\
      ata_address E (ca_recipient a) (ca_nft_mint a) (ca_nft_tp a) = Ok (ca_recipient_nft_ata a);
  (* the collection counts one more *)
  co_count : exists n n', wdat w !! ca_nft_collection_data a = Some (DNftCollection n) /\
      wdat w' !! ca_nft_collection_data a = Some (DNftCollection n') /\ nc_total_supply n' = nc_total_supply n + 1;
  (* no other stream and no other token balance changes *)
  co_streams : forall k s, k <> ca_stream a -> wdat w' !! k = Some (DStream s) <-> wdat w !! k = Some (DStream s);
  co_tokens : forall k t, k ∉ [ca_creator_ata a; ca_vault a; ca_recipient_nft_ata a] ->
      wdat w' !! k = Some (DToken t) <-> wdat w !! k = Some (DToken t);
  co_rest : unchanged_except [ca_nft_mint a; ca_recipient_nft_ata a; ca_stream a; ca_vault a; ca_metadata a; ca_edition a;
         ca_creator_ata a; ca_nft_collection_data a; ca_coll_metadata a] w w' }.

Theorem C06_create : forall E sg a p w w' evs,
  lockup_exec E sg (LCreateTs a p) w = Ok (w', evs) -> create_outcome E sg a p w w'.
Proof.
  intros E sg a p w w' evs Hx. apply exec_create_inv in Hx as (Hargs & Hacc & ct & nc & cm & dm & sb & s & name & c0 & c1 & F).
  pose proof (create_effects _ _ _ _ _ _ _ _ _ _ _ _ _ _ _ _ F) as Hc.
  pose proof (create_neq _ _ _ _ _ _ _ _ _ _ _ _ _ _ _ _ F) as Hnd.
  destruct F, Hc.
  assert (deposited (s_amounts s) = p_deposit p) as Hdep by (by subst s).
  destruct rf_coll_md_kind as (xcm & cua & cnm & ccol & csz & csgn & -> & ->).
  split.
  - exact rf_signer.
  - exists ct. split_and!; done.
  - unfold balance. rewrite ce_creator, rf_creator_ata. simpl. by rewrite Hdep.
  - exact rf_fresh_vault.
  - rewrite ce_vault. by rewrite Hdep.
  - intros Hpl. unfold balance. rewrite ce_vault. simpl. by rewrite received_plain.
  - exact rf_vault_addr.
  - exact rf_fresh_stream.
  - exists s. split; [|split].
    + unfold stream_view, load_stream, load_mint, check_seeds_bump. rewrite ce_stream, ce_nft. cbn [rbind].
      apply fpa_cpa in rf_stream_addr as [Ha _]. subst s. simpl s_bump. rewrite Ha. by rewrite bool_decide_true by done.
    + split; [exact ce_stream|]. unfold nft_mint_of. subst s. exact rf_nft_mint_addr.
    + subst s. split; reflexivity.
  - split; [exact rf_fresh_nft|exact rf_fresh_nft_ata].
  - destruct rf_edition_addr as [b Hb]. eexists _, _, _. split; [exact ce_nft|]. simpl. split; [done|]. split; [done|].
    split; [reflexivity|]. exact Hb.
  - split; [exact ce_nft_ata|exact rf_nft_ata_addr].
  - eexists _, _. split; [exact rf_nc|]. split; [exact ce_nc|]. done.
  - intros k s1 Hne. destruct (decide (k ∈ [ca_nft_mint a; ca_recipient_nft_ata a; ca_stream a; ca_vault a; ca_metadata a; ca_edition a;
         ca_creator_ata a; ca_nft_collection_data a; ca_coll_metadata a])) as [Hin|Hin].
    + rewrite !elem_of_cons in Hin.
      destruct Hin as [->|[->|[->|[->|[->|[->|[->|[->|[->|Hin]]]]]]]]];
        [split; congruence..|by apply elem_of_nil in Hin].
    + by rewrite ce_other.
  - intros k t Hne. rewrite !not_elem_of_cons in Hne. destruct Hne as (N1 & N2 & N3 & _).
    destruct (decide (k ∈ [ca_nft_mint a; ca_recipient_nft_ata a; ca_stream a; ca_vault a; ca_metadata a; ca_edition a;
         ca_creator_ata a; ca_nft_collection_data a; ca_coll_metadata a])) as [Hin|Hin].
    + rewrite !elem_of_cons in Hin.
      destruct Hin as [->|[->|[->|[->|[->|[->|[->|[->|[->|Hin]]]]]]]]];
        [split; congruence..|by apply elem_of_nil in Hin].
    + by rewrite ce_other.
  - intros k Hin. by apply ce_other.
Qed.
Lemma durations_fit_dec q now : durations_fit q now \/ ~ durations_fit q now.
Proof.
  unfold durations_fit. destruct (Z.le_gt_cases (now + q_total_duration q) U64_MAX);
    destruct (Z.le_gt_cases (now + q_cliff_duration q) U64_MAX); lia.
Qed.
(** The same for the durations variant, with the timestamps it stands for. *)
Theorem C06_create_durations : forall E sg a q w w' evs,
  lockup_exec E sg (LCreateDur a q) w = Ok (w', evs) ->
  durations_fit q (get_current_time w) /\ create_outcome E sg a (as_timestamps q (get_current_time w)) w w'.
Proof.
  intros E sg a q w w' evs Hx.
  assert (lockup_ix_ok (LCreateDur a q) = true) as Hok by (by apply lockup_exec_effect in Hx as [? _]).
  destruct (C05_durations E sg a q w Hok) as [H1 H2].
  destruct (durations_fit_dec q (get_current_time w)) as [Hf|Hf].
  - split; [done|]. rewrite H1 in Hx by done. by eapply C06_create.
  - destruct (H2 Hf) as [e He]. rewrite He in Hx. done.
Qed.
Example C06_example : is_ok (lockup_exec E0 [kSender] (LCreateTs (create_for 1) dep1) w_ini) = true /\
  is_ok (lockup_exec E0 [kSender] (LCreateDur (create_for 2) dur2) w_one) = true.
Proof. split; vm_compute; reflexivity. Qed.

(** ** C09: withdraw *)

Record withdraw_outcome (E : env) (a : withdraw_accs) (amount : Z) (w w' : world) (s s' : stream_data) (wd : Z) : Prop := {
  (* the amount is positive and at most what the view reports as withdrawable *)
  wo_before : stream_view E (wa_stream a) (wa_nft_mint a) w = Ok s;
  wo_view : withdrawable_amount_of E (wa_stream a) (wa_nft_mint a) w = Ok wd;
  wo_range : 0 < amount <= wd;
  (* the stream records it, and changes nothing else but the flags of a depleted stream *)
  wo_after : stream_view E (wa_stream a) (wa_nft_mint a) w' = Ok s';
  wo_withdrawn : withdrawn (s_amounts s') = withdrawn (s_amounts s) + amount;
  wo_refunded : refunded (s_amounts s') = refunded (s_amounts s);
  wo_terms : same_terms s s';
  wo_canceled : s_canceled s' = s_canceled s;
  wo_depleted : s_depleted s' = true <-> withdrawn (s_amounts s) + amount = deposited (s_amounts s) - refunded (s_amounts s);
  wo_cancelable : s_cancelable s' = s_cancelable s && negb (s_depleted s');
  (* the tokens go from the stream's vault to the associated account of the withdrawal recipient *)
  wo_vault : ata_address E (wa_stream a) (s_mint s) (wa_tp a) = Ok (wa_vault a);
  wo_dest : ata_address E (wa_withdrawal_recipient a) (s_mint s) (wa_tp a) = Ok (wa_dest a);
  wo_dest_owner : exists t, wdat w' !! wa_dest a = Some (DToken t) /\ t_owner t = wa_withdrawal_recipient a /\ t_mint t = s_mint s;
  wo_moved : wa_withdrawal_recipient a <> wa_stream a ->
    wa_vault a <> wa_dest a /\ balance w' (wa_vault a) = balance w (wa_vault a) - amount /\
    balance w' (wa_dest a) = balance w (wa_dest a) + received E (s_mint s) (wa_vault a) (wa_dest a) (wclock w) amount;
  (* in full, if the token is plain *)
  wo_moved_plain : wa_withdrawal_recipient a <> wa_stream a -> plain E (s_mint s) = true ->
    balance w' (wa_dest a) = balance w (wa_dest a) + amount;
  (* nothing else changes *)
  wo_rest : unchanged_except [wa_stream a; wa_vault a; wa_dest a] w w' }.

Lemma withdraw_facts_outcome E sg a amount w w' evs tr m nt s s' vt dt fee wd :
  env_ok E -> reachable E w -> 0 < amount ->
  withdraw_facts E sg a amount w w' evs tr m nt s s' vt dt fee wd -> withdraw_outcome E a amount w w' s s' wd.
Proof.
  intros HE Hr Ham F. pose proof (withdraw_stream_view _ _ _ _ _ _ _ _ _ _ _ _ _ _ _ _ F) as Hv.
  destruct F. pose proof (reachable_stream_ok _ _ _ _ HE Hr wf_stream) as Hok.
  pose proof (payout_exact _ _ _ _ _ _ _ _ _ _ _ _ _ _ _ _ wf_pay wf_vault wf_stream eq_refl wf_vault_addr ltac:(done)) as P.
  assert (Hwa : withdrawable_amount_of E (wa_stream a) (wa_nft_mint a) w = Ok wd).
  { unfold withdrawable_amount_of. rewrite Hv. cbn [rbind]. exact wf_wd. }
  pose proof wf_new as Hnew. apply stream_withdraw_ok in Hnew as (Hn1 & Hn2 & Hs').
  pose proof (withdrawable_entitled _ _ _ Hok (now_range w) wf_wd) as [Hwd Hwd0].
  pose proof (entitled_bounds s (get_current_time w) Hok) as Hb.
  pose proof (pf_dest_addr _ _ _ _ _ _ _ _ _ _ _ _ _ _ _ wf_pay) as Hda.
  destruct P. split.
  - exact Hv.
  - exact Hwa.
  - lia.
  - unfold stream_view, load_stream, load_mint, check_seeds_bump. rewrite pe_own. cbn [rbind].
    assert (exists nm, wdat w' !! wa_nft_mint a = Some (DMint nm)) as [nm ->].
    { destruct wf_nft_mint as [nm Hnm]. exists nm. rewrite pe_other; [done|congruence|congruence|].
      intros He. rewrite He in Hnm. destruct (pf_dest _ _ _ _ _ _ _ _ _ _ _ _ _ _ _ wf_pay) as [Hd|[Hd _]]; congruence. }
    cbn [rbind]. assert (s_bump s' = s_bump s) as -> by (by rewrite Hs'). rewrite wf_stream_addr. by rewrite bool_decide_true by done.
  - by rewrite Hs'.
  - by rewrite Hs'.
  - by rewrite Hs'.
  - by rewrite Hs'.
  - rewrite Hs'. simpl. pose proof (so_budget _ Hok).
    destruct (Z.leb_spec (deposited (s_amounts s) - refunded (s_amounts s)) (withdrawn (s_amounts s) + amount)).
    + split; [intros _|done]. lia.
    + rewrite wf_not_depleted. split; [done|lia].
  - rewrite Hs'. simpl.
    destruct (Z.leb_spec (deposited (s_amounts s) - refunded (s_amounts s)) (withdrawn (s_amounts s) + amount)).
    + by rewrite andb_false_r.
    + rewrite wf_not_depleted. by rewrite andb_true_r.
  - rewrite <- wf_mint_addr. exact wf_vault_addr.
  - rewrite <- wf_mint_addr. exact Hda.
  - destruct pe_dest as (td & ? & ? & ? & ?). exists td. rewrite <- wf_mint_addr. done.
  - rewrite <- wf_mint_addr. exact pe_moved.
  - intros Hn Hpl. destruct (pe_moved Hn) as (_ & _ & Hd). rewrite received_plain in Hd by congruence. exact Hd.
  - intros k Hk. rewrite !not_elem_of_cons in Hk. destruct Hk as (? & ? & ? & _). by apply pe_other.
Qed.

Theorem C09_withdraw : forall E sg a amount w w' evs,
  env_ok E -> reachable E w -> lockup_exec E sg (LWithdraw a amount) w = Ok (w', evs) ->
  exists s s' wd, withdraw_outcome E a amount w w' s s' wd.
Proof.
  intros E sg a amount w w' evs HE Hr Hx.
  apply exec_withdraw_inv in Hx as (Ham & _ & tr & m & nt & s & s' & vt & dt & fee & wd & F).
  exists s, s', wd. by eapply withdraw_facts_outcome.
Qed.
(** The one degenerate destination: a holder who names the stream itself as withdrawal recipient. The
    destination is then the vault, so the tokens stay in it although the stream counts them as withdrawn. *)
Theorem C09_withdraw_to_the_stream_itself : forall E sg a amount w w' evs,
  env_ok E -> reachable E w -> lockup_exec E sg (LWithdraw a amount) w = Ok (w', evs) ->
  wa_withdrawal_recipient a = wa_stream a ->
  wa_dest a = wa_vault a /\ balance w' (wa_vault a) = balance w (wa_vault a).
Proof.
  intros E sg a amount w w' evs HE Hr Hx Hself.
  apply exec_withdraw_inv in Hx as (Ham & _ & tr & m & nt & s & s' & vt & dt & fee & wd & F). destruct F.
  pose proof (payout_exact _ _ _ _ _ _ _ _ _ _ _ _ _ _ _ _ wf_pay wf_vault wf_stream eq_refl wf_vault_addr ltac:(done)) as P.
  exact (pe_self _ _ _ _ _ _ _ _ _ _ _ _ _ P Hself).
Qed.
Example C09_example : reachable E0 (T 1400 w1) /\
  is_ok (lockup_exec E0 [kRecipient] (LWithdraw (withdraw_to 1 kRecipient) 150) (T 1400 w1)) = true /\
  kRecipient <> kStream kSender 1 /\
  is_ok (lockup_exec E0 [kRecipient] (LWithdraw (withdraw_to 1 (kStream kSender 1)) 150) (T 1400 w1)) = true.
Proof.
  split; [eapply reachable_later; [eapply history_reach, w1_hist|]; apply (script_later [CT 1400] tr1); [apply w1_hist|vm_compute; reflexivity]|].
  split; [vm_compute; reflexivity|]. split; [vm_compute; congruence|]. vm_compute. reflexivity.
Qed.

(** ** C10: who can direct a withdrawal where *)

Definition is_withdraw (ix : lockup_ix) (a : withdraw_accs) : Prop := ix = LWithdrawMax a \/ exists amount, ix = LWithdraw a amount.

Lemma is_withdraw_facts E sg ix a w w' evs : is_withdraw ix a -> lockup_exec E sg ix w = Ok (w', evs) ->
  withdraw_accs_ok a = true /\
  exists amount tr m nt s s' vt dt fee wd, 0 < amount /\ (ix = LWithdrawMax a -> amount = wd) /\
    (forall x, ix = LWithdraw a x -> x = amount) /\
    withdraw_facts E sg a amount w w' evs tr m nt s s' vt dt fee wd.
Proof.
  intros [->|[amount ->]] Hx.
  - apply exec_withdraw_max_inv in Hx as (Hok & tr & m & nt & s & s' & vt & dt & fee & wd & ? & F). split; [done|].
    exists wd, tr, m, nt, s, s', vt, dt, fee, wd. done.
  - apply exec_withdraw_inv in Hx as (? & Hok & tr & m & nt & s & s' & vt & dt & fee & wd & F). split; [done|].
    exists amount, tr, m, nt, s, s', vt, dt, fee, wd. split; [done|]. split; [done|]. split; [|done]. by intros x [= ->].
Qed.

(** The passed recipient holds the NFT in their associated account, and either the tokens go to the
    recipient's own associated account or the recipient signed. *)
Theorem C10_authorised : forall E sg ix a w w' evs,
  is_withdraw ix a -> lockup_exec E sg ix w = Ok (w', evs) ->
  (exists nt, wdat w !! wa_nft_ata a = Some (DToken nt) /\ t_owner nt = wa_stream_recipient a /\ t_amount nt = 1 /\
     ata_address E (wa_stream_recipient a) (wa_nft_mint a) (wa_nft_tp a) = Ok (wa_nft_ata a)) /\
  ((wa_withdrawal_recipient a = wa_stream_recipient a /\
    ata_address E (wa_stream_recipient a) (wa_mint a) (wa_tp a) = Ok (wa_dest a)) \/
   wa_stream_recipient a ∈ sg).
Proof.
  intros E sg ix a w w' evs Hix Hx. destruct (is_withdraw_facts _ _ _ _ _ _ _ Hix Hx) as (_ & am & tr & m & nt & s & s' & vt & dt & fee & wd & _ & _ & _ & F).
  destruct F. pose proof (pf_dest_addr _ _ _ _ _ _ _ _ _ _ _ _ _ _ _ wf_pay) as Hda. split.
  - exists nt. split_and!; try done.
  - destruct wf_who as [He|He]; [left|right].
    + rewrite He in Hda. done.
    + rewrite <- He. exact wf_signer.
Qed.
(** The NFT in question is the stream's own, unless the address hash collides on the given inputs: the passed
    mint is the stream's NFT mint, and the passed account holds that mint's token (the program itself only
    checks the account's address; the other input is the owner that the account was created for). *)
Theorem C10_own_nft : forall E sg ix a tr ws w w' evs s,
  env_ok E -> history_via E any_clock tr ws w -> key_ok (tprog_id E SplToken) -> key_ok (tprog_id E Token2022) ->
  is_withdraw ix a -> lockup_exec E sg ix w = Ok (w', evs) ->
  wdat w !! wa_stream a = Some (DStream s) ->
  (nft_mint_of E s (wa_nft_mint a) \/
   exists nft, nft_mint_of E s nft /\
     collides E PLockup (seed_string (stream_seeds nft) (s_bump s)) (seed_string (stream_seeds (wa_nft_mint a)) (s_bump s))) /\
  exists nt, wdat w !! wa_nft_ata a = Some (DToken nt) /\
  (t_mint nt = wa_nft_mint a \/
   exists o b b', made_for E ws (wa_nft_ata a) nt o /\
     collides E PAssocToken (seed_string (ata_seeds E o (t_mint nt) (t_prog nt)) b)
       (seed_string (ata_seeds E (wa_stream_recipient a) (wa_nft_mint a) (wa_nft_tp a)) b')).
Proof.
  intros E sg ix a trc ws w w' evs s HE Hvia Ht1 Ht2 Hix Hx Hs.
  assert (reachable E w) as Hr by (exists trc; exact (via_history _ _ _ _ _ Hvia)).
  pose proof (reachable_inv _ _ HE Hr) as Hi.
  destruct (is_withdraw_facts _ _ _ _ _ _ _ Hix Hx) as (Hok & am & tr & m & nt & s1 & s' & vt & dt & fee & wd & _ & _ & _ & F).
  pose proof (withdraw_stream_view _ _ _ _ _ _ _ _ _ _ _ _ _ _ _ _ F) as Hv. destruct F.
  rewrite Hs in wf_stream. injection wf_stream as <-.
  unfold withdraw_accs_ok in Hok. ranges.
  assert (key_ok (wa_nft_mint a)) as Hkn by done. assert (key_ok (wa_stream_recipient a)) as Hkr by done. split.
  - destruct (view_at_inv _ _ _ _ _ HE Hi Hkn Hv) as [[_ Hn]|(nft & _ & [_ Hn] & Hc)]; [by left|right]. by exists nft.
  - exists nt. split; [done|].
    destruct (ata_pda _ _ _ _ _ HE wf_nft_addr) as [Hpda _].
    destruct (via_made_for _ _ _ _ _ _ _ HE Hvia wf_nft Hpda) as [o Hmade].
    pose proof (made_for_key _ _ _ _ _ _ _ _ HE Hvia Hmade) as Hko. pose proof Hmade as (_ & _ & _ & _ & _ & _ & _ & Ho).
    apply ata_fpa in Ho as [b Hb]. apply ata_fpa in wf_nft_addr as [b' Hb'].
    apply fpa_cpa in Hb as [Hb _]. apply fpa_cpa in Hb' as [Hb' _].
    destruct (reachable_keys _ _ HE Hr _ _ wf_nft) as [Hkm _].
    assert (forall tp, key_ok (tprog_id E tp)) as Hkt by (by intros []).
    destruct (cpa_cases _ _ _ _ _ _ _ Hb Hb') as [Heq|Hcol]; [left|right; exists o, b, b'; split; [exact Hmade|exact Hcol]].
    by apply (ata_seeds_inj E) in Heq as (_ & ? & _).
Qed.
Example C10_example : exists s, reachable E0 w3 /\ key_ok (tprog_id E0 SplToken) /\ key_ok (tprog_id E0 Token2022) /\
  is_ok (lockup_exec E0 [kRecipient] (LWithdrawMax (withdraw_to 1 kOther)) w3) = true /\
  wdat w3 !! kStream kSender 1 = Some (DStream s) /\ nft_mint_of E0 s (kNft kSender 1) /\
  (* without the holder's signature the same call fails, but a payout to the holder passes *)
  is_ok (lockup_exec E0 [kOther] (LWithdrawMax (WithdrawAccs kOther kRecipient kOther (ata kOther kToken SplToken) kTreasury kToken
    (ata kRecipient (kNft kSender 1) SplToken) (kStream kSender 1) (kVault kSender 1) (kNft kSender 1)
    kOracle kFeed SplToken SplToken)) w3) = false /\
  is_ok (lockup_exec E0 [kOther] (LWithdrawMax (WithdrawAccs kOther kRecipient kRecipient (ata kRecipient kToken SplToken) kTreasury kToken
    (ata kRecipient (kNft kSender 1) SplToken) (kStream kSender 1) (kVault kSender 1) (kNft kSender 1)
    kOracle kFeed SplToken SplToken)) w3) = true.
Proof.
  eexists. split; [eapply history_reach, w3_hist|]. split; [done|]. split; [done|]. split; [vm_compute; reflexivity|].
  split; [vm_compute; reflexivity|]. split; [exists 255; vm_compute; reflexivity|]. split; vm_compute; reflexivity.
Qed.

(** ** C11: withdraw_max *)

Lemma rbind_ext {A B} (x : res A) (f g : A -> res B) : (forall y, x = Ok y -> f y = g y) -> rbind x f = rbind x g.
Proof. destruct x as [y|]; simpl; [|done]. intros H. by apply H. Qed.

(** It is withdraw of the amount the view reports, in every respect, failures included. *)
Theorem C11_withdraw_max_is_withdraw : forall E sg a w wd,
  env_ok E -> reachable E w -> withdrawable_amount_of E (wa_stream a) (wa_nft_mint a) w = Ok wd ->
  lockup_exec E sg (LWithdrawMax a) w = lockup_exec E sg (LWithdraw a wd) w.
Proof.
  intros E sg a w wd HE Hr Hwd. pose proof Hwd as Hwd'. unfold withdrawable_amount_of in Hwd'.
  destruct (stream_view E (wa_stream a) (wa_nft_mint a) w) as [s|] eqn:Hv; [|done]. cbn [rbind] in Hwd'.
  destruct (stream_view_inv _ _ _ _ _ Hv) as (Hk & _).
  pose proof (reachable_stream_ok _ _ _ _ HE Hr Hk) as Hok.
  destruct (withdrawable_view_inv _ _ _ _ _ _ Hv Hok Hwd) as [Hx H0].
  pose proof (entitled_bounds s (get_current_time w) Hok) as Hb. pose proof (so_withdrawn _ Hok). pose proof (so_deposit_max _ Hok).
  pose proof (so_refunded _ Hok).
  assert (is_u64 wd = true) as Hu by (unfold is_u64; apply andb_true_intro; split; apply Z.leb_le; lia).
  unfold lockup_exec. cbn [lockup_ix_ok]. rewrite Hu, andb_true_r. apply rbind_ext. intros _ _.
  unfold withdraw, withdraw_max. apply rbind_ext. intros [[w1 s1] m] Hacc.
  assert (s1 = s /\ wclock w1 = wclock w) as [-> Hcl].
  { unfold withdraw_accounts in Hacc.
    destruct (check_signer sg (wa_signer a)); [|done]. cbn [rbind] in Hacc.
    destruct (load_lockup_treasury w (wa_treasury a)) as [tr|]; [|done]. cbn [rbind] in Hacc.
    destruct (load_mint w (wa_mint a)) as [m0|]; [|done]. cbn [rbind] in Hacc.
    destruct (load_token w (wa_nft_ata a)) as [nt|]; [|done]. cbn [rbind] in Hacc.
    unfold load_stream in Hacc. rewrite Hk in Hacc. cbn [rbind] in Hacc.
    destruct (load_token w (wa_vault a)) as [vt|]; [|done]. cbn [rbind] in Hacc.
    destruct (load_mint w (wa_nft_mint a)) as [nm|]; [|done]. cbn [rbind] in Hacc.
    destruct (init_ata_if_needed _ _ _ _ _ _ w) as [w2|] eqn:Hini; [|done]. cbn [rbind] in Hacc.
    repeat (match type of Hacc with rbind ?x _ = _ => destruct x; [|done] end; cbn [rbind] in Hacc).
    injection Hacc as <- <- <-. split; [done|]. apply init_ata_if_needed_ok in Hini as (_ & t0 & _ & _ & _ & _ & Hds). apply (ds_clock _ _ _ Hds). }
  rewrite (now_same w w1) by done. rewrite Hwd'. done.
Qed.
(** After it succeeds nothing more is withdrawable at that instant and all that is streamed is withdrawn. *)
Theorem C11_withdraw_max_empties : forall E sg a w w' evs,
  env_ok E -> reachable E w -> lockup_exec E sg (LWithdrawMax a) w = Ok (w', evs) ->
  exists s s' wd, withdraw_outcome E a wd w w' s s' wd /\
    withdrawable_amount_of E (wa_stream a) (wa_nft_mint a) w' = Ok 0 /\
    streamed_amount_of E (wa_stream a) (wa_nft_mint a) w' = Ok (withdrawn (s_amounts s')) /\
    streamed_amount_of E (wa_stream a) (wa_nft_mint a) w = Ok (withdrawn (s_amounts s')).
Proof.
  intros E sg a w w' evs HE Hr Hx. pose proof Hx as Hx0.
  apply exec_withdraw_max_inv in Hx as (_ & tr & m & nt & s & s' & vt & dt & fee & wd & H0 & F).
  pose proof (withdraw_facts_outcome _ _ _ _ _ _ _ _ _ _ _ _ _ _ _ _ HE Hr H0 F) as Ho.
  exists s, s', wd. split; [done|]. destruct Ho.
  destruct (stream_view_inv _ _ _ _ _ wo_before0) as (Hk & _). destruct (stream_view_inv _ _ _ _ _ wo_after0) as (Hk' & _).
  pose proof (reachable_stream_ok _ _ _ _ HE Hr Hk) as Hok.
  assert (stream_change E sg w w' evs (wa_stream a) s (LWithdrawMax a) s') as Hch.
  { eapply sc_withdraw; [|exact H0|done|exact F|]; [by right|]. rewrite (wf_evs _ _ _ _ _ _ _ _ _ _ _ _ _ _ _ _ F). simpl. rewrite Z.eqb_refl. lia. }
  pose proof (stream_change_ok _ _ _ _ _ _ _ _ _ Hok Hch) as (Hok' & _).
  pose proof (stream_change_entitled _ _ _ _ _ _ _ _ _ Hok Hch) as He.
  assert (get_current_time w' = get_current_time w) as Hnow.
  { apply now_same. apply (ds_clock _ _ _ (pf_step _ _ _ _ _ _ _ _ _ _ _ _ _ _ _ (wf_pay _ _ _ _ _ _ _ _ _ _ _ _ _ _ _ _ F))). }
  destruct (withdrawable_view_inv _ _ _ _ _ _ wo_before0 Hok wo_view0) as [Hwd _].
  split; [|split].
  - rewrite (withdrawable_view _ _ _ _ _ wo_after0 Hok'); rewrite Hnow, He; [f_equal|]; lia.
  - rewrite (streamed_view _ _ _ _ _ wo_after0 Hok'), Hnow, He. f_equal. lia.
  - rewrite (streamed_view _ _ _ _ _ wo_before0 Hok). f_equal. lia.
Qed.
Example C11_example : reachable E0 w3 /\ withdrawable_amount_of E0 (kStream kSender 1) (kNft kSender 1) w3 = Ok 425 /\
  is_ok (lockup_exec E0 [kRecipient] (LWithdrawMax (withdraw_to 1 kOther)) w3) = true.
Proof. split; [eapply history_reach, w3_hist|]. split; vm_compute; reflexivity. Qed.

(** ** C12: cancel *)

Record cancel_outcome (E : env) (sg : list key) (a : cancel_accs) (w w' : world) (evs : list event) (s s' : stream_data) (st : Z) : Prop := {
  xo_before : stream_view E (xa_stream a) (xa_nft_mint a) w = Ok s;
  xo_streamed : streamed_amount_of E (xa_stream a) (xa_nft_mint a) w = Ok st;
  xo_state : s_cancelable s = true /\ s_canceled s = false /\ s_depleted s = false /\ withdrawn (s_amounts s) <= st < deposited (s_amounts s);
  (* the split *)
  xo_after : stream_view E (xa_stream a) (xa_nft_mint a) w' = Ok s';
  xo_refunded : refunded (s_amounts s') = deposited (s_amounts s) - st;
  xo_withdrawn : withdrawn (s_amounts s') = withdrawn (s_amounts s);
  xo_kept : withdrawable_amount_of E (xa_stream a) (xa_nft_mint a) w' = Ok (st - withdrawn (s_amounts s));
  xo_terms : same_terms s s';
  xo_flags : s_canceled s' = true /\ s_cancelable s' = false /\ (s_depleted s' = true <-> st = withdrawn (s_amounts s));
  (* the refund goes to the sender's associated account *)
  xo_signed : s_sender s ∈ sg;
  xo_vault : ata_address E (xa_stream a) (s_mint s) (xa_tp a) = Ok (xa_vault a);
  xo_dest : ata_address E (s_sender s) (s_mint s) (xa_tp a) = Ok (xa_sender_ata a);
  xo_moved : xa_vault a <> xa_sender_ata a /\
    balance w' (xa_vault a) = balance w (xa_vault a) - (deposited (s_amounts s) - st) /\
    balance w' (xa_sender_ata a) = balance w (xa_sender_ata a) +
      received E (s_mint s) (xa_vault a) (xa_sender_ata a) (wclock w) (deposited (s_amounts s) - st);
  (* in full, if the token is plain *)
  xo_moved_plain : plain E (s_mint s) = true ->
    balance w' (xa_sender_ata a) = balance w (xa_sender_ata a) + (deposited (s_amounts s) - st);
  xo_event : evs = [EvCancel (s_mint s) (st - withdrawn (s_amounts s)) (deposited (s_amounts s) - st) (xa_stream a) (xa_nft_mint a)];
  xo_rest : unchanged_except [xa_stream a; xa_vault a; xa_sender_ata a] w w' }.

Theorem C12_cancel : forall E sg a w w' evs,
  env_ok E -> reachable E w -> signers_ok E sg -> lockup_exec E sg (LCancel a) w = Ok (w', evs) ->
  exists s s' st, cancel_outcome E sg a w w' evs s s' st.
Proof.
  intros E sg a w w' evs HE Hr Hsg Hx. apply exec_cancel_inv in Hx as (m & s & vt & dt & st & F).
  pose proof (cancel_stream_view _ _ _ _ _ _ _ _ _ _ _ F) as Hv.
  assert (stream_change E sg w w' evs (xa_stream a) s (LCancel a)
    (stream_cancel s (deposited (s_amounts s) - st) (st - withdrawn (s_amounts s)))) as Hch.
  { eapply sc_cancel; [done|exact F|]. rewrite (cf_evs _ _ _ _ _ _ _ _ _ _ _ F). simpl. rewrite Z.eqb_refl. lia. }
  destruct F. pose proof (reachable_inv _ _ HE Hr) as Hi. pose proof (inv_stream_ok _ _ _ _ Hi cf_stream) as Hok.
  pose proof (stream_change_ok _ _ _ _ _ _ _ _ _ Hok Hch) as (Hok' & _).
  pose proof (stream_change_entitled _ _ _ _ _ _ _ _ _ Hok Hch) as He.
  pose proof (payout_exact _ _ _ _ _ _ _ _ _ _ _ _ _ _ _ _ cf_pay cf_vault cf_stream eq_refl cf_vault_addr ltac:(done)) as P.
  pose proof (pf_dest_addr _ _ _ _ _ _ _ _ _ _ _ _ _ _ _ cf_pay) as Hda.
  assert (Hse : streamed_amount_of E (xa_stream a) (xa_nft_mint a) w = Ok st).
  { unfold streamed_amount_of. rewrite Hv. cbn [rbind]. exact cf_streamed. }
  assert (st = entitled s (get_current_time w)) as Hst by (rewrite (streamed_view _ _ _ _ _ Hv Hok) in Hse; congruence).
  assert (get_current_time w' = get_current_time w) as Hnow.
  { apply now_same. apply (ds_clock _ _ _ (pf_step _ _ _ _ _ _ _ _ _ _ _ _ _ _ _ cf_pay)). }
  destruct P.
  assert (Hv' : stream_view E (xa_stream a) (xa_nft_mint a) w' =
    Ok (stream_cancel s (deposited (s_amounts s) - st) (st - withdrawn (s_amounts s)))).
  { unfold stream_view, load_stream, load_mint, check_seeds_bump. rewrite pe_own. cbn [rbind].
    assert (exists nm, wdat w' !! xa_nft_mint a = Some (DMint nm)) as [nm ->].
    { destruct cf_nft_mint as [nm Hnm]. exists nm. rewrite pe_other; [done|congruence|congruence|].
      intros Heq. rewrite Heq in Hnm. destruct (pf_dest _ _ _ _ _ _ _ _ _ _ _ _ _ _ _ cf_pay) as [Hd|[Hd _]]; congruence. }
    cbn [rbind]. simpl s_bump. rewrite cf_stream_addr. by rewrite bool_decide_true by done. }
  assert (xa_sender a <> xa_stream a) as Hne.
  { intros Heq. destruct (Hsg _ cf_signer) as [Hp _]. rewrite Heq in Hp.
    destruct (cpa_pda _ _ _ _ _ HE cf_stream_addr) as [Hp' _]. congruence. }
  eexists s, _, st. split.
  - exact Hv.
  - exact Hse.
  - split_and!; try done.
  - exact Hv'.
  - done.
  - done.
  - rewrite (withdrawable_view _ _ _ _ _ Hv' Hok'); rewrite Hnow, He; simpl; [|lia]. f_equal. lia.
  - done.
  - simpl. split; [done|]. split; [done|]. rewrite cf_not_depleted. destruct (Z.eqb_spec (st - withdrawn (s_amounts s)) 0); split; done || lia.
  - rewrite <- cf_sender. exact cf_signer.
  - rewrite <- cf_mint_addr. exact cf_vault_addr.
  - rewrite <- cf_mint_addr, <- cf_sender. exact Hda.
  - rewrite <- cf_mint_addr. exact (pe_moved Hne).
  - intros Hpl. destruct (pe_moved Hne) as (_ & _ & Hd). rewrite received_plain in Hd by congruence. exact Hd.
  - rewrite <- cf_mint_addr. exact cf_evs.
  - intros k Hk. rewrite !not_elem_of_cons in Hk. destruct Hk as (? & ? & ? & _). by apply pe_other.
Qed.

(** From then on the streamed amount is the same in every later state, at whatever clock value, whatever anybody
    does; it is what the recipient keeps (withdrawn before, or still withdrawable). *)
Lemma canceled_constant E w w2 k nft s : env_ok E -> reachable E w -> stream_at E w k nft s -> s_canceled s = true -> later E w w2 ->
  exists s2, stream_at E w2 k nft s2 /\ s_canceled s2 = true /\ refunded (s_amounts s2) = refunded (s_amounts s) /\
    streamed_amount_of E k nft w2 = Ok (deposited (s_amounts s) - refunded (s_amounts s)).
Proof.
  intros HE Hr Hat Hc Hl. pose proof (reachable_inv _ _ HE Hr) as Hi.
  pose proof Hl as [tr Hrun]. destruct Hat as [Hk Hn].
  destruct (run_stream (fun _ s' => s_canceled s' = true /\ refunded (s_amounts s') = refunded (s_amounts s) /\ same_terms s s')
    E any_clock w s tr w2 k HE Hi Hrun Hk) as (s2 & Hk2 & Hc2 & Hr2 & Ht2).
  - split_and!; done.
  - intros wa a evs wb s1 s1' _ _ _ _ Hok1 (H1 & H2 & H3) [(sg & ix & _ & _ & _ & _ & Hch)|(_ & -> & _)]; [|done].
    pose proof (stream_change_terms _ _ _ _ _ _ _ _ _ Hch) as Ht.
    assert (same_terms s s1') by (by eapply same_terms_trans).
    destruct Hch as [ | a' st Hka _ _ _ Hcb _ _ | a' m vt dt st Hka F _ | ix a' am tr' m nt s' vt dt fee wd Hix Ham Hka F _].
    + done.
    + rewrite (so_flags _ Hok1) in Hcb by (by left). done.
    + rewrite (cf_not_canceled _ _ _ _ _ _ _ _ _ _ _ F) in H1. done.
    + pose proof (wf_new _ _ _ _ _ _ _ _ _ _ _ _ _ _ _ _ F) as Hn1. apply stream_withdraw_ok in Hn1 as (_ & _ & ->). done.
  - pose proof (reachable_later _ _ _ Hr Hl) as Hr3. pose proof (reachable_inv _ _ HE Hr3) as Hi2.
    assert (stream_at E w2 k nft s2) as Hat2.
    { split; [done|]. destruct Ht2 as (T1 & _ & T2 & _). unfold nft_mint_of. rewrite T1, T2. exact Hn. }
    exists s2. split; [done|]. split; [done|]. split; [done|].
    pose proof (inv_stream_ok _ _ _ _ Hi2 Hk2) as Hok2.
    rewrite (streamed_view _ _ _ _ _ (view_at _ _ _ _ _ Hi2 Hat2) Hok2). f_equal. unfold entitled. rewrite Hc2.
    destruct Ht2 as (_ & _ & _ & _ & _ & T3 & _).
    destruct (s_depleted s2) eqn:Hd2; [|lia]. apply (so_depleted _ Hok2) in Hd2. lia.
Qed.
Theorem C12_after_cancel : forall E sg a w w' evs s nft w2,
  env_ok E -> reachable E w -> signers_ok E sg -> lockup_exec E sg (LCancel a) w = Ok (w', evs) ->
  wdat w !! xa_stream a = Some (DStream s) -> nft_mint_of E s nft -> later E w' w2 ->
  exists st s2, streamed_amount_of E (xa_stream a) nft w = Ok st /\
    stream_view E (xa_stream a) nft w2 = Ok s2 /\ st = deposited (s_amounts s2) - refunded (s_amounts s2) /\
    streamed_amount_of E (xa_stream a) nft w2 = Ok st.
Proof.
  intros E sg a w w' evs s nft w2 HE Hr Hsg Hx Hk Hn Hl.
  destruct (C12_cancel _ _ _ _ _ _ HE Hr Hsg Hx) as (s0 & s' & st & Ho). destruct Ho.
  destruct (stream_view_inv _ _ _ _ _ xo_before0) as (Hk0 & _). rewrite Hk in Hk0. injection Hk0 as <-.
  destruct (stream_view_inv _ _ _ _ _ xo_after0) as (Hk' & _).
  assert (reachable E w') as Hr' by (eapply reachable_later; [exact Hr|]; eapply (step_later E any_clock); constructor; [exact Hsg|exact Hx]).
  assert (stream_at E w' (xa_stream a) nft s') as Hat'.
  { split; [done|]. destruct xo_terms0 as (T1 & _ & T2 & _). unfold nft_mint_of. rewrite T1, T2. exact Hn. }
  destruct (canceled_constant _ _ _ _ _ _ HE Hr' Hat' (proj1 xo_flags0) Hl) as (s2 & Hat2 & _ & Hr2 & Hst2).
  destruct Hl as [tr Hrun]. destruct (later_stream E w' w2 _ _ _ HE (reachable_inv _ _ HE Hr') (ex_intro _ tr Hrun) Hat') as (s2' & [Hk2' _] & Ht2).
  pose proof Hat2 as [Hk2 _]. rewrite Hk2 in Hk2'. injection Hk2' as <-.
  pose proof xo_terms0 as (_ & _ & _ & _ & _ & T3 & _). destruct Ht2 as (_ & _ & _ & _ & _ & T4 & _).
  pose proof (reachable_inv _ _ HE Hr) as Hi. pose proof (inv_stream_ok _ _ _ _ Hi Hk) as Hok.
  exists st, s2. split; [|split; [|split]].
  - rewrite (streamed_view _ _ _ _ _ (view_at _ _ _ _ _ Hi (conj Hk Hn)) Hok).
    rewrite (streamed_view _ _ _ _ _ xo_before0 Hok) in xo_streamed0. exact xo_streamed0.
  - apply view_at; [|done]. apply (reachable_inv _ _ HE). eapply reachable_later; [exact Hr'|by exists tr].
  - lia.
  - rewrite Hst2. f_equal. lia.
Qed.
Example C12_example : exists s, reachable E0 (T 1600 w2) /\ signers_ok E0 [kSender] /\
  is_ok (lockup_exec E0 [kSender] (LCancel (cancel_of 1)) (T 1600 w2)) = true /\
  wdat (T 1600 w2) !! kStream kSender 1 = Some (DStream s) /\ nft_mint_of E0 s (kNft kSender 1) /\
  streamed_amount_of E0 (kStream kSender 1) (kNft kSender 1) (T 1600 w2) = Ok 575 /\
  streamed_amount_of E0 (kStream kSender 1) (kNft kSender 1) w4 = Ok 575.
Proof.
  eexists. split; [eapply reachable_later; [eapply history_reach, w2_hist|]; apply (script_later [CT 1600] tr2); [apply w2_hist|vm_compute; reflexivity]|].
  split; [apply signers_from_check; vm_compute; reflexivity|]. split; [vm_compute; reflexivity|].
  split; [vm_compute; reflexivity|]. split; [exists 255; vm_compute; reflexivity|]. split; vm_compute; reflexivity.
Qed.

(** ** C13: only the sender cancels or renounces *)
Theorem C13_cancel_needs_sender : forall E sg a w w' evs,
  lockup_exec E sg (LCancel a) w = Ok (w', evs) ->
  exists s, wdat w !! xa_stream a = Some (DStream s) /\ s_sender s ∈ sg /\
    ata_address E (s_sender s) (s_mint s) (xa_tp a) = Ok (xa_sender_ata a).
Proof.
  intros E sg a w w' evs Hx. apply exec_cancel_inv in Hx as (m & s & vt & dt & st & F). destruct F.
  exists s. split; [done|]. rewrite <- cf_sender, <- cf_mint_addr. split; [done|].
  exact (pf_dest_addr _ _ _ _ _ _ _ _ _ _ _ _ _ _ _ cf_pay).
Qed.
Theorem C13_renounce_needs_sender : forall E sg a w w' evs,
  lockup_exec E sg (LRenounce a) w = Ok (w', evs) ->
  exists s, wdat w !! ra_stream a = Some (DStream s) /\ s_sender s ∈ sg.
Proof.
  intros E sg a w w' evs Hx. apply exec_renounce_inv in Hx as (s & st & Hs & He & Hk & _).
  exists s. split; [done|]. by rewrite <- He.
Qed.
(** Whatever happens, in any step by anybody: if a stream becomes canceled, gets a refund recorded, or stops being
    cancelable without being depleted, its sender signed. *)
Theorem C13_any_step : forall E C w a evs w' k s s',
  env_ok E -> reachable E w -> step E C w a evs w' ->
  wdat w !! k = Some (DStream s) -> wdat w' !! k = Some (DStream s') ->
  s_canceled s' <> s_canceled s \/ refunded (s_amounts s') <> refunded (s_amounts s) \/
    (s_cancelable s' <> s_cancelable s /\ s_depleted s' = false) ->
  exists sg ix, a = ALockup sg ix /\ s_sender s ∈ sg.
Proof.
  intros E C w a evs w' k s s' HE Hr Hst Hk Hk' Hd. pose proof (reachable_inv _ _ HE Hr) as Hi.
  destruct (step_stream _ _ _ _ _ _ _ _ HE (inv_sane _ _ Hi) Hst Hk) as (s1 & Hk1 & Hch).
  rewrite Hk' in Hk1. injection Hk1 as <-.
  destruct Hch as [(sg & ix & -> & _ & _ & _ & Hch)|(_ & -> & _)]; [|exfalso; naive_solver].
  exists sg, ix. split; [done|].
  destruct Hch as [ | a' st Hka Hsi Hse _ Hcb _ _ | a' m vt dt st Hka F _ | ix a' am tr' m nt s' vt dt fee wd Hix Ham Hka F _].
  - exfalso; naive_solver.
  - by rewrite <- Hse.
  - destruct F. by rewrite <- cf_sender.
  - exfalso. pose proof (wf_new _ _ _ _ _ _ _ _ _ _ _ _ _ _ _ _ F) as Hn1. apply stream_withdraw_ok in Hn1 as (_ & _ & ->).
    simpl in Hd. destruct Hd as [?|[?|[? Hdd]]]; [done|done|]. destruct (_ <=? _); done.
Qed.
Example C13_example : exists s, reachable E0 (T 1600 w2) /\
  is_ok (lockup_exec E0 [kSender] (LCancel (cancel_of 1)) (T 1600 w2)) = true /\
  is_ok (lockup_exec E0 [kRecipient; kOther] (LCancel (cancel_of 1)) (T 1600 w2)) = false /\
  is_ok (lockup_exec E0 [kSender] (LRenounce (renounce_of 2)) (T 1600 w2)) = true /\
  is_ok (lockup_exec E0 [kRecipient; kOther] (LRenounce (renounce_of 2)) (T 1600 w2)) = false /\
  wdat (T 1600 w2) !! kStream kSender 1 = Some (DStream s) /\ s_sender s = kSender.
Proof.
  eexists. split; [eapply reachable_later; [eapply history_reach, w2_hist|]; apply (script_later [CT 1600] tr2); [apply w2_hist|vm_compute; reflexivity]|].
  split; [vm_compute; reflexivity|]. split; [vm_compute; reflexivity|]. split; [vm_compute; reflexivity|]. split; [vm_compute; reflexivity|].
  split; vm_compute; reflexivity.
Qed.

(** ** C22: streams are isolated from each other *)

(** The stream an instruction acts on. *)
Definition acts_on (ix : lockup_ix) : option key :=
  match ix with
  | LCreateTs a _ | LCreateDur a _ => Some (ca_stream a)
  | LRenounce a => Some (ra_stream a)
  | LCancel a => Some (xa_stream a)
  | LWithdraw a _ | LWithdrawMax a => Some (wa_stream a)
  | _ => None
  end.
(** The token account an instruction pays into. *)
Definition pays_into (ix : lockup_ix) : option key :=
  match ix with
  | LCreateTs a _ | LCreateDur a _ => Some (ca_vault a)
  | LCancel a => Some (xa_sender_ata a)
  | LWithdraw a _ | LWithdrawMax a => Some (wa_dest a)
  | _ => None
  end.

Theorem C22_isolated : forall E sg ix w w' evs k s,
  env_ok E -> reachable E w -> signers_ok E sg -> lockup_exec E sg ix w = Ok (w', evs) ->
  wdat w !! k = Some (DStream s) -> acts_on ix <> Some k ->
  wdat w' !! k = Some (DStream s) /\
  forall v t, wdat w !! v = Some (DToken t) -> t_owner t = k ->
    exists t', wdat w' !! v = Some (DToken t') /\ t_owner t' = k /\ t_mint t' = t_mint t /\
      t_amount t <= t_amount t' /\ (pays_into ix <> Some v -> t' = t).
Proof.
  intros E sg ix w w' evs k s HE Hr Hsg Hx Hk Hne. pose proof (reachable_inv _ _ HE Hr) as Hi.
  pose proof (li_stream _ _ (inv_lockup _ _ Hi) _ _ Hk) as Hsi.
  assert (pda_of E PLockup k = true) as Hpk.
  { destruct (si_nft _ _ _ _ Hsi) as (nft & b & m & au & _ & Hka & _). by apply fpa_pda in Hka as [? _]. }
  assert (Hsne : forall x, x ∈ sg -> x <> k) by (intros x Hxs ->; destruct (Hsg _ Hxs); congruence).
  destruct (lockup_exec_effect _ _ _ _ _ _ Hx) as [Hok Heff].
  destruct (lockup_stream _ _ _ _ _ _ _ _ Heff Hk) as (s' & Hk' & Hch).
  assert (Hsame : paid_out k evs = 0 /\ s' = s).
  { destruct Hch as [ | a' st Hka | a' m vt dt st Hka F _ | ix a' am tr' m nt s' vt dt fee wd Hix Ham Hka F _]; try done.
    - simpl in Hne. congruence.
    - simpl in Hne. congruence.
    - destruct Hix as [->|[-> _]]; simpl in Hne; congruence. }
  destruct Hsame as [Hp ->]. split; [done|]. intros v t Hv Ho.
  destruct (stream_change_vault _ _ _ _ _ _ _ _ _ _ _ HE Hsg Hx Hk (si_ok _ _ _ _ Hsi) Hpk Hch Hv Ho) as (t' & Hv' & (S1 & S2 & S3 & S4) & Hge).
  exists t'. split; [done|]. split; [congruence|]. split; [done|]. split; [lia|]. intros Hpi.
  assert (wdat w' !! v = Some (DToken t)) as Hfin; [|congruence].
  destruct Heff as [a f p c tb nb ? F|? a p ct nc cm dm sb s1 nm c0 c1 ? ? Hixx Hargs F|a s1 st ? ? Hsi' Hse Hs ? ? ? ? -> ->|a m s1 vt dt st ? ? F
      |? a am tr m nt s1 s2 vt dt fee wd ? ? Hixx Ham F|a tr n' ? Hc Htr' ? ? -> ? Hmv].
  - destruct F. rewrite !Forall_cons in if_fresh. destruct if_fresh as (? & ? & ? & ? & ? & ? & _).
    rewrite (ds_dat _ _ _ if_step). rewrite !lookup_insert_ne by congruence. done.
  - pose proof (create_effects _ _ _ _ _ _ _ _ _ _ _ _ _ _ _ _ F) as Hc. destruct F, Hc.
    rewrite ce_other; [done|]. rewrite !not_elem_of_cons.
    destruct rf_coll_md_kind as (? & ? & ? & ? & ? & ? & -> & _).
    split_and!; try congruence.
    + intros ->. rewrite rf_creator_ata in Hv. injection Hv as ->. by apply (Hsne (ca_creator a)); [|congruence].
    + apply not_elem_of_nil.
  - rewrite wdat_set_dat, lookup_insert_ne by congruence. done.
  - destruct F. rewrite (ds_dat _ _ _ (pf_step _ _ _ _ _ _ _ _ _ _ _ _ _ _ _ cf_pay)).
    pose proof (pf_vault_owner _ _ _ _ _ _ _ _ _ _ _ _ _ _ _ cf_pay) as Hvo. simpl in *.
    rewrite payout_lookup_other; [done|congruence| |congruence].
    intros ->. rewrite cf_vault in Hv. injection Hv as ->. congruence.
  - destruct F. rewrite (ds_dat _ _ _ (pf_step _ _ _ _ _ _ _ _ _ _ _ _ _ _ _ wf_pay)).
    pose proof (pf_vault_owner _ _ _ _ _ _ _ _ _ _ _ _ _ _ _ wf_pay) as Hvo.
    assert (wa_stream a <> k /\ wa_dest a <> v) as [? ?] by (destruct Hixx as [->|[-> _]]; simpl in *; split; congruence).
    rewrite payout_lookup_other; [done|congruence| |congruence].
    intros ->. rewrite wf_vault in Hv. injection Hv as ->. congruence.
  - apply move_lamports_ok in Hmv as (Hd & _). by rewrite Hd.
Qed.
Example C22_example : exists s t, reachable E0 (T 1600 w2) /\ signers_ok E0 [kSender] /\
  is_ok (lockup_exec E0 [kSender] (LCancel (cancel_of 1)) (T 1600 w2)) = true /\
  wdat (T 1600 w2) !! kStream kSender 2 = Some (DStream s) /\ acts_on (LCancel (cancel_of 1)) <> Some (kStream kSender 2) /\
  wdat (T 1600 w2) !! kVault kSender 2 = Some (DToken t) /\ t_owner t = kStream kSender 2 /\ t_amount t = 3000.
Proof.
  eexists _, _. split; [eapply reachable_later; [eapply history_reach, w2_hist|]; apply (script_later [CT 1600] tr2); [apply w2_hist|vm_compute; reflexivity]|].
  split; [apply signers_from_check; vm_compute; reflexivity|]. split; [vm_compute; reflexivity|].
  split; [vm_compute; reflexivity|]. split; [vm_compute; congruence|]. split; [vm_compute; reflexivity|]. split; vm_compute; reflexivity.
Qed.

Print Assumptions C06_create_durations.
Print Assumptions C09_withdraw.
Print Assumptions C10_own_nft.
Print Assumptions C11_withdraw_max_empties.
Print Assumptions C12_after_cancel.
Print Assumptions C13_any_step.
Print Assumptions C22_isolated.
