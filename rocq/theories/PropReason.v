(** A refused call with the right accounts says exactly why: C61 without "or it fails elsewhere". *)
From Verif Require Import PropLive PropClaim PropClawback PropCreateLive PropSchedule PropErrors PropFees ToyRun Lockup.
Local Opaque find_program_address ata_address create_program_address nft_name.

(** The result of [r] is decided by the requirements: it fails with [e] if and only if [e] names the first broken one, and
    otherwise succeeds. *)
Definition decided {A} (r : res A) (reqs : list (Prop * error)) : Prop :=
  (forall e, r = Err e <-> first_broken reqs e) /\ ((exists x, r = Ok x) <-> Forall (fun q => fst q) reqs).

Lemma all_or_broken (reqs : list (Prop * error)) : Forall (fun q => fst q \/ ~ fst q) reqs ->
  Forall (fun q => fst q) reqs \/ exists e, first_broken reqs e.
Proof.
  induction 1 as [|[P e] l [H|H] _ IH]; [left; constructor| |].
  - destruct IH as [IH|[e' IH]]; [left; by constructor|right; exists e'; by apply fb_next].
  - right. exists e. by apply fb_here.
Qed.
Lemma broken_not_all reqs e : first_broken reqs e -> Forall (fun q => fst q) reqs -> False.
Proof. intros (l1 & P & l2 & -> & _ & HP) H. apply Forall_app in H as [_ H]. apply Forall_cons in H as [H _]. exact (HP H). Qed.
Lemma decided_intro {A} (r : res A) reqs : Forall (fun q => fst q \/ ~ fst q) reqs ->
  (forall e, first_broken reqs e -> r = Err e) -> (Forall (fun q => fst q) reqs -> exists x, r = Ok x) -> decided r reqs.
Proof.
  intros Hd Hf Hg. destruct (all_or_broken _ Hd) as [Hall|[e He]].
  - destruct (Hg Hall) as [x Hx]. split; [|split; [done|by exists x]].
    intros e. split; [intros Hr; congruence|]. intros Hb. destruct (broken_not_all _ _ Hb Hall).
  - pose proof (Hf e He) as Hr. split.
    + intros e'. split; [|apply Hf]. intros Hr'. assert (e' = e) as -> by congruence. exact He.
    + split; [intros [x Hx]; congruence|]. intros Hall. destruct (broken_not_all _ _ He Hall).
Qed.

(** ** The accounts phases *)
Lemma withdraw_accounts_live E w sg a n fee s : env_ok E -> inv E w -> 0 <= n <= U64_MAX -> withdraw_ready E w sg a n fee s ->
  exists w1 m, withdraw_accounts E sg a w = Ok (w1, s, m) /\ get_current_time w1 = get_current_time w.
Proof.
  intros HE Hi Hn R.
  destruct R as [Rsg Racc Rst [Rna (nt & Rnt & Rno & Rnp & Rn1)] Rwho [Rmi (m & Rm & Rmp)] [(vt & Rv & Rvo & Rvm & Rva) [Rfz [(vt' & Rv' & Rvp) Rbk]]] Rfee Rdest Rtok].
  rewrite Rv in Rv'. injection Rv' as <-.
  pose proof (fee_view_nonneg _ _ _ _ _ _ HE Rfee) as Hf0.
  destruct (fee_view_inv _ _ _ _ _ _ Rfee) as (tr & Htr & Htra & Hcp & Hcf & Hconv).
  pose proof (view_at _ _ _ _ _ Hi Rst) as Hv. apply stream_view_inv in Hv as (Hst & (nm & Hnm) & Hsa).
  destruct (init_ata_live E _ _ _ _ _ w m n fee Hf0 ltac:(lia) Rm Rmp Rdest) as (w1 & t & Hi1 & Hds & _).
  exists w1, m. split; [|apply now_same; apply (ds_clock _ _ _ Hds)]. unfold withdraw_accounts.
  rewrite (check_signer_live _ _ Rsg), (proj2 (load_lockup_treasury_ok _ _ _) Htr), (proj2 (load_mint_ok _ _ _) Rm),
    (proj2 (load_token_ok _ _ _) Rnt), (proj2 (load_stream_ok _ _ _) Hst), (proj2 (load_token_ok _ _ _) Rv), (proj2 (load_mint_ok _ _ _) Hnm).
  cbn [rbind]. rewrite Hi1. cbn [rbind].
  assert (((wa_withdrawal_recipient a =? wa_stream_recipient a)
     || (negb (wa_withdrawal_recipient a =? wa_stream_recipient a) && (wa_signer a =? wa_stream_recipient a))) = true) as ->.
  { destruct (Z.eqb_spec (wa_withdrawal_recipient a) (wa_stream_recipient a)); [done|]. destruct Rwho as [?|H]; [done|]. by rewrite H, Z.eqb_refl. }
  cbn [ensure rbind]. rewrite (check_seeds_bump_live _ _ _ _ _ Htra). rewrite (check_address_live _ _ Rmi).
  rewrite (check_ata_live _ _ _ _ _ _ Rnp Rno Rna). rewrite Rn1, Z.eqb_refl. cbn [ensure rbind].
  rewrite (check_seeds_bump_live _ _ _ _ _ Hsa). rewrite (check_ata_live E (wa_vault a) vt (wa_stream a) (wa_mint a) (wa_tp a)); [|done|done|].
  2:{ rewrite Rmi, <- Rvp. exact Rva. }
  rewrite (check_address_live _ _ Hcp), (check_address_live _ _ Hcf). reflexivity.
Qed.

(** ** Withdraw *)
Theorem C82_withdraw : forall E w sg a amount n fee s, env_ok E -> reachable_fwd E w ->
  (* accounts and signers with which some amount could be withdrawn at some time *)
  0 <= n <= U64_MAX -> withdraw_ready E w sg a n fee s -> 0 <= amount <= U64_MAX ->
  (forall e, first_broken (withdraw_requirements s amount (get_current_time w)) e -> lockup_exec E sg (LWithdraw a amount) w = Err e) /\
  (withdraw_ready E w sg a amount fee s -> decided (lockup_exec E sg (LWithdraw a amount) w) (withdraw_requirements s amount (get_current_time w))).
Proof.
  intros E w sg a amount n fee s HE Hr Hn R Ham. pose proof (reachable_inv _ _ HE (fwd_reachable _ _ Hr)) as Hi.
  pose proof (wr_stream _ _ _ _ _ _ _ R) as Hs. pose proof (inv_stream_ok _ _ _ _ Hi (proj1 Hs)) as Hok.
  pose proof (reachable_fwd_ok _ _ HE Hr _ _ (proj1 Hs)) as Hle. pose proof (entitled_bounds s (get_current_time w) Hok) as Heb.
  destruct (withdraw_accounts_live E w sg a n fee s HE Hi Hn R) as (w1 & m & Hacc & Hn1).
  assert (forall e, first_broken (withdraw_requirements s amount (get_current_time w)) e -> lockup_exec E sg (LWithdraw a amount) w = Err e) as Hf.
  { intros e He. apply withdraw_first in He. unfold lockup_exec, lockup_ix_ok. rewrite (wr_accs _ _ _ _ _ _ _ R).
    assert (is_u64 amount = true) as -> by (unfold is_u64; apply andb_true_intro; split; apply Z.leb_le; lia).
    cbn [andb ensure rbind]. unfold withdraw. rewrite Hacc. cbn [rbind]. unfold withdraw_handler, get_withdrawable_amount.
    rewrite Hn1. rewrite (streamed_entitled s) by (done || apply now_range). cbn [rbind]. rewrite u64_sub_le by lia. cbn [rbind].
    rewrite He. reflexivity. }
  split; [exact Hf|]. intros R2.
  assert (Forall (fun q => fst q) (withdraw_requirements s amount (get_current_time w)) -> exists x, lockup_exec E sg (LWithdraw a amount) w = Ok x) as Hg.
  { intros Hall. unfold withdraw_requirements in Hall. rewrite !Forall_cons in Hall. destruct Hall as (H1 & H2 & H3 & _). cbn [fst] in *.
    destruct (withdraw_live E w sg a amount fee s HE Hi Hle R2 ltac:(lia)) as [w' Hw']. by eexists. }
  apply decided_intro; [|exact Hf|exact Hg].
  unfold withdraw_requirements. rewrite !Forall_cons. cbn [fst]. split_and!; [destruct (s_depleted s); (by left) || (by right)|lia|lia|by constructor].
Qed.

(** ** Withdraw-max *)
Theorem C82_withdraw_max : forall E w sg a n fee s, env_ok E -> reachable_fwd E w ->
  0 <= n <= U64_MAX -> withdraw_ready E w sg a n fee s ->
  (forall e, first_broken (withdraw_max_requirements s (get_current_time w)) e -> lockup_exec E sg (LWithdrawMax a) w = Err e) /\
  (forall wd, withdrawable_amount_of E (wa_stream a) (wa_nft_mint a) w = Ok wd -> withdraw_ready E w sg a wd fee s ->
     decided (lockup_exec E sg (LWithdrawMax a) w) (withdraw_max_requirements s (get_current_time w))).
Proof.
  intros E w sg a n fee s HE Hr Hn R. pose proof (reachable_inv _ _ HE (fwd_reachable _ _ Hr)) as Hi.
  pose proof (wr_stream _ _ _ _ _ _ _ R) as Hs. pose proof (inv_stream_ok _ _ _ _ Hi (proj1 Hs)) as Hok.
  pose proof (reachable_fwd_ok _ _ HE Hr _ _ (proj1 Hs)) as Hle. pose proof (entitled_bounds s (get_current_time w) Hok) as Heb.
  pose proof (view_at _ _ _ _ _ Hi Hs) as Hv. pose proof (withdrawable_view _ _ _ _ _ Hv Hok Hle) as Hwd.
  pose proof (C11_withdraw_max_is_withdraw E sg a w _ HE (fwd_reachable _ _ Hr) Hwd) as Heq.
  assert (0 <= entitled s (get_current_time w) - withdrawn (s_amounts s) <= U64_MAX) as Hb by (destruct Hok; lia).
  destruct (C82_withdraw E w sg a _ n fee s HE Hr Hn R Hb) as [Hf Hd]. rewrite Heq. split.
  - intros e He. apply Hf. by apply withdraw_max_first.
  - intros wd Hwd' R2. assert (wd = entitled s (get_current_time w) - withdrawn (s_amounts s)) as -> by congruence.
    destruct (Hd R2) as [H1 H2]. split.
    + intros e. rewrite H1. apply withdraw_max_first.
    + rewrite H2. unfold withdraw_requirements, withdraw_max_requirements. rewrite !Forall_cons. cbn [fst]. split; [intros (?&?&?&?)|intros (?&?&?)]; split_and!; try done; lia.
Qed.

(** ** Cancel *)
Theorem C82_cancel : forall E w sg a r s, env_ok E -> reachable_fwd E w ->
  0 <= r <= U64_MAX -> cancel_ready E w sg a s r ->
  (forall e, first_broken (cancel_requirements s (get_current_time w)) e -> lockup_exec E sg (LCancel a) w = Err e) /\
  (refundable_amount_of E (xa_stream a) (xa_nft_mint a) w = Ok r ->
     decided (lockup_exec E sg (LCancel a) w) (cancel_requirements s (get_current_time w))).
Proof.
  intros E w sg a r s HE Hr Hn R. pose proof (reachable_inv _ _ HE (fwd_reachable _ _ Hr)) as Hi.
  pose proof (xr_stream _ _ _ _ _ _ R) as Hs. pose proof (inv_stream_ok _ _ _ _ Hi (proj1 Hs)) as Hok.
  pose proof (reachable_fwd_ok _ _ HE Hr _ _ (proj1 Hs)) as Hle. pose proof (entitled_bounds s (get_current_time w) Hok) as Heb.
  pose proof (view_at _ _ _ _ _ Hi Hs) as Hv.
  assert (forall e, first_broken (cancel_requirements s (get_current_time w)) e -> lockup_exec E sg (LCancel a) w = Err e) as Hf.
  { destruct R as [Rsg Racc Rst Rse [Rmi (m & Rm & Rmp)] [(vt & Rv & Rvo & Rvm & Rva) [Rfz [(vt' & Rv' & Rvp) Rbk]]] Rdest Rtok].
    rewrite Rv in Rv'. injection Rv' as <-. pose proof Hv as Hv'. apply stream_view_inv in Hv' as (Hst & (nm & Hnm) & Hsa).
    destruct (init_ata_live E _ _ _ _ _ w m r 0 ltac:(lia) ltac:(lia) Rm Rmp Rdest) as (w1 & t & Hi1 & Hds & _).
    assert (get_current_time w1 = get_current_time w) as Hn1 by (apply now_same; apply (ds_clock _ _ _ Hds)).
    intros e He. apply cancel_first in He. unfold lockup_exec. rewrite Racc. cbn [ensure rbind]. unfold Lockup.cancel.
    rewrite (check_signer_live _ _ Rsg), (proj2 (load_mint_ok _ _ _) Rm),
      (proj2 (load_stream_ok _ _ _) Hst), (proj2 (load_token_ok _ _ _) Rv), (proj2 (load_mint_ok _ _ _) Hnm).
    cbn [rbind]. rewrite Hi1. cbn [rbind].
    rewrite (check_address_live _ _ Rse), (check_address_live _ _ Rmi), (check_seeds_bump_live _ _ _ _ _ Hsa). cbn [rbind].
    rewrite (check_ata_live E (xa_vault a) vt (xa_stream a) (xa_mint a) (xa_tp a)); [|done|done|].
    2:{ rewrite Rmi, <- Rvp. exact Rva. }
    cbn [rbind]. rewrite Hn1. rewrite (streamed_entitled s) by (done || apply now_range). cbn [rbind]. rewrite He. reflexivity. }
  split; [exact Hf|]. intros Hre. apply decided_intro; [|exact Hf|].
  - unfold cancel_requirements. rewrite !Forall_cons. cbn [fst].
    split_and!; [destruct (s_depleted s); (by left) || (by right)|destruct (s_canceled s); (by left) || (by right)|destruct (s_cancelable s); (by left) || (by right)|lia|by constructor].
  - intros Hall. unfold cancel_requirements in Hall. rewrite !Forall_cons in Hall. destruct Hall as (H1 & H2 & H3 & H4 & _). cbn [fst] in *.
    rewrite (refundable_view _ _ _ _ s Hv Hok) in Hre. rewrite H1, H3 in Hre. cbn [andb negb] in Hre. injection Hre as <-.
    destruct (cancel_live E w sg a s HE Hi Hle H3 H4 R) as (w' & evs & Hx). by eexists.
Qed.

(** ** Renounce *)
Theorem C82_renounce : forall E w sg a s, env_ok E -> reachable_fwd E w -> stream_at E w (ra_stream a) (ra_nft_mint a) s ->
  lockup_ix_ok (LRenounce a) = true -> ra_sender a ∈ sg -> ra_sender a = s_sender s ->
  decided (lockup_exec E sg (LRenounce a) w) (renounce_requirements s (get_current_time w)).
Proof.
  intros E w sg a s HE Hr Hs Racc Rsg Rse. pose proof (reachable_inv _ _ HE (fwd_reachable _ _ Hr)) as Hi.
  pose proof (inv_stream_ok _ _ _ _ Hi (proj1 Hs)) as Hok. pose proof (view_at _ _ _ _ _ Hi Hs) as Hv.
  apply decided_intro.
  - unfold renounce_requirements. rewrite !Forall_cons. cbn [fst]. split; [|by constructor]. destruct (s_cancelable s); [|right; by intros []].
    destruct (Z_lt_dec (entitled s (get_current_time w)) (deposited (s_amounts s))); [left|right]; tauto.
  - intros e He. apply renounce_first in He. apply stream_view_inv in Hv as (Hst & (nm & Hnm) & Hsa).
    unfold lockup_exec. rewrite Racc. cbn [ensure rbind]. unfold renounce.
    rewrite (check_signer_live _ _ Rsg), (proj2 (load_stream_ok _ _ _) Hst), (proj2 (load_mint_ok _ _ _) Hnm). cbn [rbind].
    rewrite (check_address_live _ _ Rse), (check_seeds_bump_live _ _ _ _ _ Hsa). cbn [rbind].
    rewrite (streamed_entitled s) by (done || apply now_range). cbn [rbind]. rewrite He. reflexivity.
  - intros Hall. unfold renounce_requirements in Hall. rewrite !Forall_cons in Hall. destruct Hall as ([H1 H2] & _). cbn [fst] in *.
    destruct (C20_renounce_succeeds E w sg a s _ HE Hr Hs (streamed_view _ _ _ _ _ Hv Hok) H1 H2 Racc Rsg Rse) as (w' & evs & Hx). by eexists.
Qed.

(** ** Clawback *)
Theorem C82_clawback : forall E w sg a amount n c, env_ok E -> reachable_fwd E w -> wclock w <= I64_LAST ->
  0 <= n <= U64_MAX -> clawback_ready E w sg a n c -> 0 <= amount <= U64_MAX ->
  (forall e, first_broken (clawback_requirements c (get_current_time w)) e -> merkle_exec E sg (MClawback a amount) w = Err e) /\
  (clawback_ready E w sg a amount c -> decided (merkle_exec E sg (MClawback a amount) w) (clawback_requirements c (get_current_time w))).
Proof.
  intros E w sg a amount n c HE Hr Hclk Hn R Ham. pose proof (reachable_inv _ _ HE (fwd_reachable _ _ Hr)) as Hi.
  pose proof (br_campaign _ _ _ _ _ _ R) as Hc%load_campaign_ok.
  pose proof (ci_ok _ _ _ _ (mi_campaign _ _ (inv_merkle _ _ Hi) _ _ Hc)) as Hok.
  pose proof (fwd_first_claim E w _ _ HE Hr Hc) as Hfc.
  assert (forall e, first_broken (clawback_requirements c (get_current_time w)) e -> merkle_exec E sg (MClawback a amount) w = Err e) as Hf.
  { intros e He.
    assert (check_clawback (get_current_time w) (c_expiration c) (c_first_claim c) = Err e) as Hk.
    { destruct (clawback_refused c (get_current_time w)) as [Hk|(e' & Hk & Hke)]; [apply Hok|apply Hok| | |].
      - unfold clawback_requirements in He. fb_done. done.
      - unfold clawback_requirements in He. fb_done. exact Hk.
      - exfalso. destruct (grace_defined (get_current_time w) (c_first_claim c)) as [b Hg].
        { unfold SEVEN_DAYS, U64_MAX, I64_LAST in *. lia. }
        unfold check_clawback in Hk. rewrite Hg in Hk. cbn [rbind] in Hk. destruct (b && _); [|discriminate Hk].
        injection Hk as <-. discriminate Hke. }
    destruct R as [[Rsg Rcr] Rc Racc [Rmi (m & Rm & Rmp)] (Rva & vt & Rv & Vo & Vm & Vp & Rfz & Rb) Rdest Rtok].
    destruct (init_ata_live E _ _ _ _ _ w m n 0 ltac:(lia) ltac:(lia) Rm Rmp Rdest) as (w1 & t & Hi1 & Hds & _).
    assert (get_current_time w1 = get_current_time w) as Hn1 by (apply now_same; apply (ds_clock _ _ _ Hds)).
    assert (merkle_ix_ok (MClawback a amount) = true) as Racc2.
    { change (merkle_ix_ok (MClawback a n)) with (forallb is_key [ba_creator a; ba_recipient a; ba_recipient_ata a; ba_mint a; ba_campaign a; ba_vault a] && is_u64 n) in Racc.
      apply andb_true_iff in Racc as [Racc _]. unfold merkle_ix_ok. rewrite Racc. unfold is_u64. apply andb_true_intro; split; [done|]. apply andb_true_intro; split; apply Z.leb_le; lia. }
    unfold merkle_exec. rewrite Racc2. cbn [ensure rbind]. unfold clawback.
    rewrite (check_signer_live _ _ Rsg), (proj2 (load_mint_ok _ _ _) Rm),
      (proj2 (load_campaign_ok _ _ _) Hc), (proj2 (load_token_ok _ _ _) Rv). cbn [rbind].
    rewrite Hi1. cbn [rbind]. rewrite (check_address_live _ _ Rcr), (check_address_live _ _ Rmi).
    rewrite (check_ata_live E (ba_vault a) vt (ba_campaign a) (ba_mint a) (ba_tp a) Vp Vo Rva). cbn [rbind].
    rewrite Hn1, Hk. reflexivity. }
  split; [exact Hf|]. intros R2. apply decided_intro; [|exact Hf|].
  - unfold clawback_requirements. rewrite !Forall_cons. cbn [fst]. split; [|by constructor]. unfold clawback_allowed, expired. lia.
  - intros Hall. unfold clawback_requirements in Hall. rewrite !Forall_cons in Hall. destruct Hall as (H1 & _). cbn [fst] in *.
    destruct (C40_clawback_succeeds E w sg a amount c HE Hr Hclk R2 H1) as (w' & Hx). by eexists.
Qed.


(** ** Claim *)

(** Right accounts and signer for a claim of index [i]; the window, the proof and the tokens in the vault are left open. *)
Record claim_addressed (E : env) (w : world) (sg : list key) (a : claim_accs) (i amount : Z) (proof : list bytes) (c : campaign) : Prop := {
  ld_signed : la_claimer a ∈ sg;
  ld_ix : merkle_ix_ok (MClaim a i amount proof) = true;
  ld_campaign : campaign_view (la_campaign a) w = Ok c;
  (* the receipt of index [i], which was not claimed yet *)
  ld_unclaimed : has_claimed E (la_campaign a) (la_receipt a) i w = Ok false;
  ld_mint : la_mint a = c_mint c /\ exists m, wdat w !! la_mint a = Some (DMint m) /\ m_prog m = la_tp a;
  ld_vault : ata_address E (la_campaign a) (la_mint a) (la_tp a) = Ok (la_vault a) /\
    exists t, wdat w !! la_vault a = Some (DToken t) /\ t_owner t = la_campaign a /\ t_prog t = la_tp a;
  (* the fee is quoted for these accounts *)
  ld_fee : exists fee, claim_fee_in_lamports E (la_treasury a) (la_chainlink a) (la_feed a) w = Ok fee;
  (* the claimer can pay for the accounts to be made *)
  ld_receipt_lam : 0 <= lam w (la_receipt a);
  ld_dest : can_receive E w (la_claimer a) (la_recipient_ata a) (la_recipient a) (la_mint a) (la_tp a) 0 (Z.max 1 (rent_min E 8)) }.

Theorem C82_claim : forall E w sg a i amount proof c, env_ok E -> reachable E w -> signers_ok E sg -> hash_ok (keccak E) ->
  claim_addressed E w sg a i amount proof c ->
  (forall e, first_broken (claim_requirements (keccak E) c (Entry i (la_recipient a) amount) proof (get_current_time w)) e ->
     merkle_exec E sg (MClaim a i amount proof) w = Err e) /\
  (forall fee, claim_ready E w sg a (Entry i (la_recipient a) amount) fee c ->
     decided (merkle_exec E sg (MClaim a i amount proof) w) (claim_requirements (keccak E) c (Entry i (la_recipient a) amount) proof (get_current_time w))).
Proof.
  intros E w sg a i amount proof c HE Hr Hsg HH R. pose proof (reachable_inv _ _ HE Hr) as Hi.
  pose proof (ld_campaign _ _ _ _ _ _ _ _ R) as Hc%load_campaign_ok.
  destruct (mi_campaign _ _ (inv_merkle _ _ Hi) _ _ Hc) as [Hok Haddr _].
  pose proof (ld_ix _ _ _ _ _ _ _ _ R) as Hix.
  change (merkle_ix_ok (MClaim a i amount proof)) with (forallb is_key [la_claimer a; la_recipient a; la_recipient_ata a; la_treasury a; la_mint a;
        la_campaign a; la_vault a; la_receipt a; la_chainlink a; la_feed a] && is_u32 i && is_u64 amount && forallb is_hash proof) in Hix.
  apply andb_true_iff in Hix as [Hix Hp]. apply andb_true_iff in Hix as [Hix Ham]. apply andb_true_iff in Hix as [Hkeys Hidx].
  pose proof Hp as Hpf. apply is_hash_proof in Hpf.
  assert (forall e, first_broken (claim_requirements (keccak E) c (Entry i (la_recipient a) amount) proof (get_current_time w)) e ->
     merkle_exec E sg (MClaim a i amount proof) w = Err e) as Hf.
  { intros e He. apply (claim_first E c i amount (la_recipient a) proof) in He; [|apply Hok|done|done].
    destruct R as [Rsg Rix Rc Ru [Rmi (m & Rm & Rmp)] (Rva & vt & Rv & Vo & Vp) (fee & Rfee) Rl Rdest].
    apply has_claimed_inv in Ru as (_ & (rb & Hrec) & Hu).
    assert (wdat w !! la_receipt a = None) as Hrn.
    { destruct (wdat w !! la_receipt a); [|done]. discriminate (proj2 Hu ltac:(done)). }
    destruct (proj1 (claim_fee_view_inv _ _ _ _ _ _) Rfee) as (tr & Htrv & Hcp & Hcf & Hconv).
    apply merkle_treasury_view_inv in Htrv as [Htr Htra].
    destruct (init_ata_live E _ _ _ _ _ w m 0 (Z.max 1 (rent_min E 8)) ltac:(lia) ltac:(unfold U64_MAX; lia) Rm Rmp Rdest)
      as (w1 & t & Hi1 & Hds & Hdt & To & Tm & Tp & Tf & Tr & Tc).
    pose proof (fpa_pda _ _ _ _ _ HE Hrec) as [Prec _].
    assert (la_receipt a <> la_recipient_ata a) as N0.
    { intros Heq. rewrite Heq in Prec. destruct (ata_pda _ _ _ _ _ HE (cr_addr _ _ _ _ _ _ _ _ _ Rdest)) as [Pa _].
      pose proof (eo_disjoint _ HE _ _ _ Prec Pa). done. }
    assert (la_claimer a <> la_receipt a) as N1 by (intros Heq; destruct (Hsg _ Rsg); congruence).
    assert (0 <= lam w1 (la_receipt a)) as Hl1.
    { rewrite (init_ata_net _ _ _ _ _ _ _ _ (la_receipt a) (eo_rent _ HE) Hi1). unfold net. simpl.
      rewrite (proj2 (Z.eqb_neq _ _) N0). rewrite (proj2 (Z.eqb_neq _ _) (not_eq_sym N1)). lia. }
    destruct (init_account_live E (la_claimer a) (la_receipt a) RECEIPT_SPACE DClaimReceipt w1 0 ltac:(lia)) as (w2 & Hi2 & Hds2 & _); [|done|done| |].
    { rewrite (ds_dat _ _ _ Hds), lookup_insert_ne by congruence. done. }
    { rewrite Z.add_0_r. exact Tc. }
    assert (get_current_time w2 = get_current_time w) as Hn2.
    { apply now_same. by rewrite (ds_clock _ _ _ Hds2), (ds_clock _ _ _ Hds). }
    unfold merkle_exec. rewrite Rix. cbn [ensure rbind]. unfold claim.
    rewrite (check_signer_live _ _ Rsg), (proj2 (load_merkle_treasury_ok _ _ _) Htr), (proj2 (load_mint_ok _ _ _) Rm),
      (proj2 (load_campaign_ok _ _ _) Hc), (proj2 (load_token_ok _ _ _) Rv). cbn [rbind].
    rewrite Hi1. cbn [rbind]. unfold check_seeds. rewrite Hrec. cbn [rbind fst snd]. rewrite Z.eqb_refl. cbn [ensure rbind].
    rewrite Hi2. cbn [rbind]. rewrite (check_seeds_bump_live _ _ _ _ _ Htra). rewrite (check_address_live _ _ Rmi).
    rewrite (check_ata_live E (la_vault a) vt (la_campaign a) (la_mint a) (la_tp a) Vp Vo Rva).
    rewrite (check_address_live _ _ Hcp), (check_address_live _ _ Hcf). cbn [rbind].
    rewrite Hn2, He. reflexivity. }
  split; [exact Hf|]. intros fee R2. apply decided_intro; [|exact Hf|].
  - unfold claim_requirements. rewrite !Forall_cons. cbn [fst]. split_and!; [lia|lia| |by constructor].
    destruct (decide (climb_end (keccak E) (keccak E (keccak E (entry_bytes (Entry i (la_recipient a) amount)))) proof = c_root c)); [by left|by right].
  - intros Hall.
    assert (check_claim E (get_current_time w) amount (c_start c) (c_expiration c) i proof (c_root c) (la_recipient a) = Ok tt) as Hck.
    { destruct (check_claim _ _ _ _ _ _ _ _ _) as [[]|e] eqn:Hck; [done|]. exfalso.
      apply claim_first in Hck; [|apply Hok|done|done]. exact (broken_not_all _ _ Hck Hall). }
    apply check_claim_iff in Hck as (_ & _ & Hpr).
    destruct (claim_live E w sg a (Entry i (la_recipient a) amount) fee c proof HE Hi Hsg) as [w' Hw']; [|done..|by eexists].
    unfold entry_ok. cbn [e_index e_recipient e_amount]. split_and!; try (clear - Hidx Ham; unfold is_u32, is_u64 in *; bools; lia).
    apply Step.is_key_ok. cbn [forallb] in Hkeys. apply andb_true_iff in Hkeys as [_ Hkeys]. by apply andb_true_iff in Hkeys as [Hkeys _].
Qed.

(** ** Create *)
Definition create_reasons (p : create_args) : list (Prop * error) := map (fun q => (fst q, ELockup (snd q))) (requirements_of p).
Lemma fst_map (l : list (Prop * lockup_error)) : Forall (fun q : Prop * error => fst q) (map (fun q => (fst q, ELockup (snd q))) l) <-> Forall (fun q => fst q) l.
Proof. induction l as [|[P e] l IH]; cbn [map fst snd]; [split; constructor|]. rewrite !Forall_cons. cbn [fst]. by rewrite IH. Qed.
Lemma first_broken_map (l : list (Prop * lockup_error)) e : first_violated l e -> first_broken (map (fun q => (fst q, ELockup (snd q))) l) (ELockup e).
Proof.
  intros (l1 & P & l2 & -> & Hall & HP). exists (map (fun q => (fst q, ELockup (snd q))) l1), P, (map (fun q => (fst q, ELockup (snd q))) l2).
  split; [by rewrite map_app|]. split; [|done]. by apply fst_map.
Qed.
Lemma first_broken_map_inv (l : list (Prop * lockup_error)) e : first_broken (map (fun q => (fst q, ELockup (snd q))) l) e ->
  exists le, e = ELockup le /\ first_violated l le.
Proof.
  intros (l1 & P & l2 & Heq & Hall & HP). apply map_eq_app in Heq as (m1 & m2 & -> & <- & Heq). destruct m2 as [|[Q le] m2]; [discriminate Heq|].
  cbn [map fst snd] in Heq. injection Heq as -> <- _. exists le. split; [done|]. exists m1, P, m2. split; [done|]. split; [|done].
  by apply fst_map.
Qed.
Theorem C82_create : forall E w sg a p p0, env_ok E -> reachable E w ->
  (* accounts, signers and funds with which a stream of the same salt could be created *)
  create_ready E w sg a p0 -> p_salt p0 = p_salt p -> lockup_ix_ok (LCreateTs a p) = true ->
  (forall e, first_broken (create_reasons p) e -> lockup_exec E sg (LCreateTs a p) w = Err e) /\
  (p_deposit p <= p_deposit p0 -> token_allows E w (ca_deposit_mint a) (ca_creator_ata a) (ca_vault a) (p_deposit p) ->
     decided (lockup_exec E sg (LCreateTs a p) w) (create_reasons p)).
Proof.
  intros E w sg a p p0 HE Hr R Hsalt Hix.
  destruct (C47_create_succeeds E w sg a p0 HE Hr R) as (w0 & evs0 & Hx0).
  assert (exists x, create_accounts E sg a (p_salt p) w = Ok x) as [x Hacc].
  { unfold lockup_exec in Hx0. rewrite (kr_ix _ _ _ _ _ R) in Hx0. cbn [ensure rbind] in Hx0. unfold create_with_timestamps in Hx0.
    rewrite Hsalt in Hx0. destruct (create_accounts E sg a (p_salt p) w) as [x|e]; [by exists x|discriminate Hx0]. }
  assert (forall e, first_broken (create_reasons p) e -> lockup_exec E sg (LCreateTs a p) w = Err e) as Hf.
  { intros e He. apply first_broken_map_inv in He as (le & -> & He). by apply (C04_rejected_with_first_error E sg a p w x le Hix Hacc). }
  pose proof (create_ix_ranges _ _ Hix) as Hrng.
  split; [exact Hf|]. intros Hdep Htok. apply decided_intro; [|exact Hf|].
  - unfold create_reasons, requirements_of, create_requirements. cbn [map fst snd]. rewrite !Forall_cons. cbn [fst].
    split_and!; try (by constructor); try lia.
  - intros Hall. unfold create_reasons in Hall. apply fst_map in Hall.
    assert (terms_of p) as Ht.
    { exact (proj2 (proj1 (C04_requirements p (proj1 Hrng))) Hall). }
    destruct R as [Rsg Rix Rac Rt Rad Rco Rm (Rca & ct & Ct & Cto & Ctm & Ctp & Ctf & Cta) Rtok Rfu Rdi Rnew].
    destruct (C47_create_succeeds E w sg a p HE Hr) as (w' & evs & Hx); [|by eexists].
    constructor; try done.
    + by rewrite <- Hsalt.
    + split; [done|]. exists ct. split_and!; try done. lia.
Qed.

(** ** Examples: calls with right accounts, refused for the named reason *)
Example C82_withdraw_example :
  lockup_exec E0 [kRecipient] (LWithdraw (withdraw_to 1 kRecipient) 363) (T 1400 w1) = Err (ELockup Overdraw) /\
  lockup_exec E0 [kRecipient] (LWithdraw (withdraw_to 1 kRecipient) 0) (T 1400 w1) = Err (ELockup WithdrawAmountZero).
Proof.
  destruct C19_example as (s & Hr & R & Hwd). pose proof (reachable_inv _ _ E0_ok (fwd_reachable _ _ Hr)) as Hi.
  pose proof (wr_stream _ _ _ _ _ _ _ R) as Hs. pose proof (inv_stream_ok _ _ _ _ Hi (proj1 Hs)) as Hok.
  pose proof (view_at _ _ _ _ _ Hi Hs) as Hv.
  destruct (withdrawable_view_inv _ _ _ _ _ _ Hv Hok Hwd) as [Heq _].
  assert (s_depleted s = false) as Hd.
  { destruct (s_depleted s) eqn:Hd; [|reflexivity]. exfalso. pose proof (so_depleted _ Hok) as [H _]. specialize (H Hd). unfold entitled in Heq. rewrite Hd in Heq. lia. }
  split.
  - assert (0 <= 150 <= U64_MAX /\ 0 <= 363 <= U64_MAX) as [B1 B2] by (vm_compute; repeat split; discriminate).
    refine (proj1 (C82_withdraw E0 _ [kRecipient] (withdraw_to 1 kRecipient) 363 150 0 s E0_ok Hr B1 R B2) _ _).
    apply fb_next; [exact Hd|]. apply fb_next; [discriminate|]. apply fb_here. lia.
  - assert (0 <= 150 <= U64_MAX /\ 0 <= 0 <= U64_MAX) as [B1 B2] by (vm_compute; repeat split; discriminate).
    refine (proj1 (C82_withdraw E0 _ [kRecipient] (withdraw_to 1 kRecipient) 0 150 0 s E0_ok Hr B1 R B2) _ _).
    apply fb_next; [exact Hd|]. apply fb_here. intros H. exact (H eq_refl).
Qed.
Example C82_claim_example : claim_addressed E0 w6 [kOther] (claim_by kOther 1500 0 2 kCollector) 2 201 [nodeAB] camp6 /\
  merkle_exec E0 [kOther] (MClaim (claim_by kOther 1500 0 2 kCollector) 2 201 [nodeAB]) w6 = Err (EMerkle InvalidMerkleProof).
Proof.
  assert (claim_addressed E0 w6 [kOther] (claim_by kOther 1500 0 2 kCollector) 2 201 [nodeAB] camp6) as R.
  { split.
    - apply elem_of_list_here.
    - vm_compute. reflexivity.
    - exact w6_campaign.
    - vm_compute. reflexivity.
    - split; [vm_compute; reflexivity|]. eexists. split; vm_compute; reflexivity.
    - split; [vm_compute; reflexivity|]. eexists. split; [vm_compute; reflexivity|]. split; vm_compute; reflexivity.
    - exists 0. vm_compute. reflexivity.
    - vm_compute. discriminate.
    - split; [vm_compute; reflexivity|]. right. split; [vm_compute; reflexivity|]. split; [vm_compute; discriminate|]. split; [vm_compute; discriminate|].
      right. split; [vm_compute; reflexivity|]. vm_compute. discriminate. }
  split; [exact R|].
  assert (signers_ok E0 [kOther]) as Hsg by (intros k ->%elem_of_list_singleton; split; vm_compute; reflexivity).
  refine (proj1 (C82_claim E0 w6 [kOther] _ 2 201 [nodeAB] camp6 E0_ok w6_reach Hsg keccak_hash_ok R) _ _).
  apply fb_next; [vm_compute; discriminate|]. apply fb_next; [left; vm_compute; reflexivity|]. apply fb_here. vm_compute. discriminate.
Qed.
Example C82_create_example :
  lockup_exec E0 [kSender] (LCreateTs (create_for 3) (CreateArgs 3 1000 1100 1200 2000 100 901 true)) w1 = Err (ELockup UnlockAmountsSumTooHigh).
Proof.
  destruct C47_example as [Hr R].
  assert (lockup_ix_ok (LCreateTs (create_for 3) (CreateArgs 3 1000 1100 1200 2000 100 901 true)) = true) as Hix by (vm_compute; reflexivity).
  refine (proj1 (C82_create E0 w1 [kSender] (create_for 3) (CreateArgs 3 1000 1100 1200 2000 100 901 true) dep3 E0_ok Hr R eq_refl Hix) _ _).
  unfold create_reasons, requirements_of, create_requirements. cbn [map fst snd p_deposit p_start p_cliff p_end p_start_unlock p_cliff_unlock].
  repeat (apply fb_next; [lia|]). apply fb_here. lia.
Qed.

Print Assumptions C82_withdraw.
Print Assumptions C82_withdraw_max.
Print Assumptions C82_cancel.
Print Assumptions C82_renounce.
Print Assumptions C82_clawback.
Print Assumptions C82_claim.
Print Assumptions C82_create.
