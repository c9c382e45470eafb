(** A scripted history through every instruction of both programs. *)
From Verif Require Export Toy.

(** ** Accounts *)
Definition kTreasury : key := pda PLockup [s_TREASURY].
Definition kCollData : key := pda PLockup [s_NFT_COLLECTION_DATA].
Definition kCollMint : key := pda PLockup [s_NFT_COLLECTION_MINT].
Definition kEdition (m : key) : key := pda PMetadata (edition_seeds E0 m).
Definition kMetadata (m : key) : key := pda PMetadata (metadata_seeds E0 m).
Definition kNft (sender salt : Z) : key := pda PLockup (nft_mint_seeds sender salt).
Definition kStream (sender salt : Z) : key := pda PLockup (stream_seeds (kNft sender salt)).
Definition kVault (sender salt : Z) : key := ata (kStream sender salt) kToken SplToken.

Definition init_accs : initialize_accs :=
  InitializeAccs kOther kTreasury kCollData (kEdition kCollMint) (kMetadata kCollMint) kCollMint
    (ata kTreasury kCollMint SplToken) SplToken.
Definition create_for (salt : Z) : create_accs :=
  CreateAccs kSender (ata kSender kToken SplToken) kRecipient kSender kCollData (kEdition kCollMint)
    (kMetadata kCollMint) kCollMint kToken (kNft kSender salt) (ata kRecipient (kNft kSender salt) SplToken)
    (kStream kSender salt) (kVault kSender salt) (kEdition (kNft kSender salt)) (kMetadata (kNft kSender salt))
    SplToken SplToken.
Definition withdraw_to (salt : Z) (to : key) : withdraw_accs :=
  WithdrawAccs kRecipient kRecipient to (ata to kToken SplToken) kTreasury kToken
    (ata kRecipient (kNft kSender salt) SplToken) (kStream kSender salt) (kVault kSender salt) (kNft kSender salt)
    kOracle kFeed SplToken SplToken.
Definition cancel_of (salt : Z) : cancel_accs :=
  CancelAccs kSender (ata kSender kToken SplToken) kToken (kStream kSender salt) (kVault kSender salt)
    (kNft kSender salt) SplToken.
Definition renounce_of (salt : Z) : renounce_accs :=
  RenounceAccs kSender (kStream kSender salt) (kNft kSender salt).

Definition dep1 : create_args := CreateArgs 1 1000 1100 1200 2000 100 50 true.
Definition dur2 : create_dur_args := CreateDurArgs 2 3000 0 1000 0 0 true.

(** ** Merkle Instant accounts: a tree with three recipients *)
Definition leaf3 (i r a : Z) : bytes := keccak256 (keccak256 (le_bytes 4 i ++ key_bytes r ++ le_bytes 8 a)).
Definition pair_hash (x y : bytes) : bytes := if bytes_leb x y then keccak256 (x ++ y) else keccak256 (y ++ x).
Definition leafA : bytes := Eval vm_compute in leaf3 0 kRecipient 500.
Definition leafB : bytes := Eval vm_compute in leaf3 1 kOther 300.
Definition leafC : bytes := Eval vm_compute in leaf3 2 kCollector 200.
Definition nodeAB : bytes := Eval vm_compute in pair_hash leafA leafB.
Definition rootABC : bytes := Eval vm_compute in pair_hash nodeAB leafC.

Definition kMTreasury : key := pda PMerkle [s_TREASURY].
Definition drop_name : bytes := [65; 66; 67].
Definition drop_cid : bytes := [81; 109].
Definition camp_args (start expiration : Z) : campaign_args :=
  CampaignArgs rootABC start expiration drop_name drop_cid 1000 3.
Definition kCampaign (start expiration : Z) : key :=
  pda PMerkle (campaign_seeds kSender rootABC start expiration drop_name kToken).
Definition kCampVault (start expiration : Z) : key := ata (kCampaign start expiration) kToken SplToken.
Definition camp_accs (start expiration : Z) : campaign_accs :=
  CampaignAccs kSender kToken (kCampaign start expiration) (kCampVault start expiration) SplToken.
Definition kReceipt (start expiration i : Z) : key := pda PMerkle (receipt_seeds (kCampaign start expiration) i).
Definition claim_by (who start expiration i r : Z) : claim_accs :=
  ClaimAccs who r (ata r kToken SplToken) kMTreasury kToken (kCampaign start expiration) (kCampVault start expiration)
    (kReceipt start expiration i) kOracle kFeed SplToken.
Definition clawback_to (start expiration to : Z) : clawback_accs :=
  ClawbackAccs kSender to (ata to kToken SplToken) kToken (kCampaign start expiration) (kCampVault start expiration) SplToken.

(** ** The script, in stages *)
(** Lockup is initialized, two streams are created at 1000 (the second starts at once). *)
Definition script1 : list cmd :=
  [CL [kOther] (LInitialize init_accs kCollector kOracle kFeed);
   CL [kSender] (LCreateTs (create_for 1) dep1);
   CL [kSender] (LCreateDur (create_for 2) dur2)].
(** At 1400 the recipient of stream 1 withdraws 150. *)
Definition script2 : list cmd :=
  [CT 1400; CL [kRecipient] (LWithdraw (withdraw_to 1 kRecipient) 150)].
(** At 1600 stream 1 is canceled and stream 2 renounced. *)
Definition script3 : list cmd :=
  [CT 1600; CL [kSender] (LCancel (cancel_of 1)); CL [kSender] (LRenounce (renounce_of 2))].
(** At 1700 stream 1 is emptied to a third party. *)
Definition script4 : list cmd :=
  [CT 1700; CL [kRecipient] (LWithdrawMax (withdraw_to 1 kOther))].
(** Merkle Instant: a campaign without and one with expiration 3000; the first is funded. *)
Definition script5 : list cmd :=
  [CM [kOther] (MInitialize kOther kMTreasury kCollector kOracle kFeed);
   CM [kSender] (MCreateCampaign (camp_accs 1500 0) (camp_args 1500 0));
   CM [kSender] (MCreateCampaign (camp_accs 1500 3000) (camp_args 1500 3000));
   CGive (kCampVault 1500 0) 1000; CGive (kCampVault 1500 3000) 1000].
(** At 1800 somebody claims for the recipient (index 0); the creator claws 100 back in the grace period. *)
Definition script6 : list cmd :=
  [CT 1800; CM [kOther] (MClaim (claim_by kOther 1500 0 0 kRecipient) 0 500 [leafB; leafC]);
   CM [kSender] (MClawback (clawback_to 1500 0 kSender) 100)].
(** At 1000000 the grace period is over; index 2 is claimed. *)
Definition script7 : list cmd :=
  [CT 1000000; CM [kCollector; kOther] (MClaim (claim_by kOther 1500 0 2 kCollector) 2 200 [nodeAB])].

(** The traces and the worlds of the stages, written out (computed by [Eval], and checked by [stage1] ... [stage7]). *)
Definition w1 : world := lit
  (ltac:(let x := eval vm_compute in (lam_of (script E0 script1 w0)) in exact x))
  (ltac:(let x := eval vm_compute in (dat_of (script E0 script1 w0)) in exact x))
  (ltac:(let x := eval vm_compute in (wclock (script E0 script1 w0)) in exact x)).
Definition tr_1 : trace := Eval vm_compute in script_trace E0 script1 w0.
Lemma stage1 : stage E0 script1 w0 tr_1 w1.
Proof. apply stage_intro. vm_compute. reflexivity. Qed.
Definition w2 : world := lit
  (ltac:(let x := eval vm_compute in (lam_of (script E0 script2 w1)) in exact x))
  (ltac:(let x := eval vm_compute in (dat_of (script E0 script2 w1)) in exact x))
  (ltac:(let x := eval vm_compute in (wclock (script E0 script2 w1)) in exact x)).
Definition tr_2 : trace := Eval vm_compute in script_trace E0 script2 w1.
Lemma stage2 : stage E0 script2 w1 tr_2 w2.
Proof. apply stage_intro. vm_compute. reflexivity. Qed.
Definition w3 : world := lit
  (ltac:(let x := eval vm_compute in (lam_of (script E0 script3 w2)) in exact x))
  (ltac:(let x := eval vm_compute in (dat_of (script E0 script3 w2)) in exact x))
  (ltac:(let x := eval vm_compute in (wclock (script E0 script3 w2)) in exact x)).
Definition tr_3 : trace := Eval vm_compute in script_trace E0 script3 w2.
Lemma stage3 : stage E0 script3 w2 tr_3 w3.
Proof. apply stage_intro. vm_compute. reflexivity. Qed.
Definition w4 : world := lit
  (ltac:(let x := eval vm_compute in (lam_of (script E0 script4 w3)) in exact x))
  (ltac:(let x := eval vm_compute in (dat_of (script E0 script4 w3)) in exact x))
  (ltac:(let x := eval vm_compute in (wclock (script E0 script4 w3)) in exact x)).
Definition tr_4 : trace := Eval vm_compute in script_trace E0 script4 w3.
Lemma stage4 : stage E0 script4 w3 tr_4 w4.
Proof. apply stage_intro. vm_compute. reflexivity. Qed.
Definition w5 : world := lit
  (ltac:(let x := eval vm_compute in (lam_of (script E0 script5 w4)) in exact x))
  (ltac:(let x := eval vm_compute in (dat_of (script E0 script5 w4)) in exact x))
  (ltac:(let x := eval vm_compute in (wclock (script E0 script5 w4)) in exact x)).
Definition tr_5 : trace := Eval vm_compute in script_trace E0 script5 w4.
Lemma stage5 : stage E0 script5 w4 tr_5 w5.
Proof. apply stage_intro. vm_compute. reflexivity. Qed.
Definition w6 : world := lit
  (ltac:(let x := eval vm_compute in (lam_of (script E0 script6 w5)) in exact x))
  (ltac:(let x := eval vm_compute in (dat_of (script E0 script6 w5)) in exact x))
  (ltac:(let x := eval vm_compute in (wclock (script E0 script6 w5)) in exact x)).
Definition tr_6 : trace := Eval vm_compute in script_trace E0 script6 w5.
Lemma stage6 : stage E0 script6 w5 tr_6 w6.
Proof. apply stage_intro. vm_compute. reflexivity. Qed.
Definition w7 : world := lit
  (ltac:(let x := eval vm_compute in (lam_of (script E0 script7 w6)) in exact x))
  (ltac:(let x := eval vm_compute in (dat_of (script E0 script7 w6)) in exact x))
  (ltac:(let x := eval vm_compute in (wclock (script E0 script7 w6)) in exact x)).
Definition tr_7 : trace := Eval vm_compute in script_trace E0 script7 w6.
Lemma stage7 : stage E0 script7 w6 tr_7 w7.
Proof. apply stage_intro. vm_compute. reflexivity. Qed.
(** The worlds between the commands of script1: only Lockup's [initialize], and the first stream in addition. *)
Definition w_ini : world := lit
  (ltac:(let x := eval vm_compute in (lam_of (script E0 (firstn 1 script1) w0)) in exact x))
  (ltac:(let x := eval vm_compute in (dat_of (script E0 (firstn 1 script1) w0)) in exact x)) 1000.
Definition w_one : world := lit
  (ltac:(let x := eval vm_compute in (lam_of (script E0 (firstn 2 script1) w0)) in exact x))
  (ltac:(let x := eval vm_compute in (dat_of (script E0 (firstn 2 script1) w0)) in exact x)) 1000.
Lemma w_ini_stage : stage E0 (firstn 1 script1) w0 (firstn 1 tr_1) w_ini.
Proof. apply stage_intro. vm_compute. reflexivity. Qed.
Lemma w_one_stage : stage E0 (firstn 1 (skipn 1 script1)) w_ini (firstn 1 (skipn 1 tr_1)) w_one.
Proof. apply stage_intro. vm_compute. reflexivity. Qed.

(** ** Every stage is reached *)
Lemma E0_sane w tr : history E0 forward_clock tr w -> token_sane E0 w.
Proof. intros H. apply (inv_sane _ _ (history_inv _ _ _ _ E0_ok H)). Qed.
Lemma E0_keys w tr : history E0 forward_clock tr w -> keys_sane w.
Proof. intros H. apply (reachable_keys E0); [apply E0_ok|]. exists tr. by eapply history_any. Qed.
Lemma history_script cs tr w : history E0 forward_clock tr w -> script_ok E0 cs w = true ->
  history E0 forward_clock (tr ++ script_trace E0 cs w) (script E0 cs w).
Proof.
  intros H Hok. pose proof (E0_sane _ _ H) as Hs. pose proof (E0_keys _ _ H) as Hks. destruct H as (w00 & Hg & Hr). exists w00. split; [done|].
  eapply run_app; [exact Hr|]. apply script_run; [apply E0_ok|done|done|done].
Qed.

Lemma history_stage cs tr w tr' w' : history E0 forward_clock tr w -> stage E0 cs w tr' w' ->
  history E0 forward_clock (tr ++ tr') w'.
Proof. intros H (Hok & <- & <-). by apply history_script. Qed.
Lemma stage_later cs tr w tr' w' : history E0 forward_clock tr w -> stage E0 cs w tr' w' -> later E0 w w'.
Proof.
  intros H (Hok & <- & <-). exists (script_trace E0 cs w). eapply run_any.
  apply script_run; [apply E0_ok|by eapply E0_sane|by eapply E0_keys|done].
Qed.

Lemma stage_later_fwd cs tr w tr' w' : history E0 forward_clock tr w -> stage E0 cs w tr' w' ->
  (0 <=? wclock w) && (wclock w <=? U64_MAX) = true -> later_fwd E0 w w'.
Proof.
  intros H (Hok & <- & <-) [?%Z.leb_le ?%Z.leb_le]%andb_prop. exists (script_trace E0 cs w). split; [|done].
  apply script_run; [apply E0_ok|by eapply E0_sane|by eapply E0_keys|done].
Qed.

Definition tr1 : trace := tr_1.
Definition tr2 : trace := tr1 ++ tr_2.
Definition tr3 : trace := tr2 ++ tr_3.
Definition tr4 : trace := tr3 ++ tr_4.
Definition tr5 : trace := tr4 ++ tr_5.
Definition tr6 : trace := tr5 ++ tr_6.
Definition tr7 : trace := tr6 ++ tr_7.

Lemma w0_hist : history E0 forward_clock [] w0.
Proof. exists w0. split; [apply w0_genesis|constructor]. Qed.
Lemma w1_hist : history E0 forward_clock tr1 w1.
Proof. exact (history_stage _ [] _ _ _ w0_hist stage1). Qed.
Lemma w2_hist : history E0 forward_clock tr2 w2.
Proof. exact (history_stage _ _ _ _ _ w1_hist stage2). Qed.
Lemma w3_hist : history E0 forward_clock tr3 w3.
Proof. exact (history_stage _ _ _ _ _ w2_hist stage3). Qed.
Lemma w4_hist : history E0 forward_clock tr4 w4.
Proof. exact (history_stage _ _ _ _ _ w3_hist stage4). Qed.
Lemma w5_hist : history E0 forward_clock tr5 w5.
Proof. exact (history_stage _ _ _ _ _ w4_hist stage5). Qed.
Lemma w6_hist : history E0 forward_clock tr6 w6.
Proof. exact (history_stage _ _ _ _ _ w5_hist stage6). Qed.
Lemma w7_hist : history E0 forward_clock tr7 w7.
Proof. exact (history_stage _ _ _ _ _ w6_hist stage7). Qed.

Lemma w_ini_hist : history E0 forward_clock (firstn 1 tr_1) w_ini.
Proof. exact (history_stage _ [] _ _ _ w0_hist w_ini_stage). Qed.
Lemma w_one_hist : history E0 forward_clock (firstn 1 tr_1 ++ firstn 1 (skipn 1 tr_1)) w_one.
Proof. exact (history_stage _ _ _ _ _ w_ini_hist w_one_stage). Qed.
Lemma history_reach E tr w : history E forward_clock tr w -> reachable E w.
Proof. intros H. exists tr. by eapply history_any. Qed.
Lemma history_fwd E tr w : history E forward_clock tr w -> (0 <=? wclock w) && (wclock w <=? U64_MAX) = true ->
  reachable_fwd E w.
Proof. intros H [?%Z.leb_le ?%Z.leb_le]%andb_prop. split; [done|]. by exists tr. Qed.
Lemma script_later cs tr w : history E0 forward_clock tr w -> script_ok E0 cs w = true -> later E0 w (script E0 cs w).
Proof.
  intros H Hok. exists (script_trace E0 cs w). eapply run_any. apply script_run; [apply E0_ok|by eapply E0_sane|by eapply E0_keys|done].
Qed.
Lemma script_later_fwd cs tr w : history E0 forward_clock tr w -> script_ok E0 cs w = true ->
  (0 <=? wclock w) && (wclock w <=? U64_MAX) = true -> later_fwd E0 w (script E0 cs w).
Proof.
  intros H Hok [?%Z.leb_le ?%Z.leb_le]%andb_prop. exists (script_trace E0 cs w). split; [|done].
  apply script_run; [apply E0_ok|by eapply E0_sane|by eapply E0_keys|done].
Qed.
Lemma stage_run cs tr w tr' w' : history E0 forward_clock tr w -> stage E0 cs w tr' w' -> run E0 forward_clock w tr' w'.
Proof.
  intros H (Hok & <- & <-). apply script_run; [apply E0_ok|by eapply E0_sane|by eapply E0_keys|done].
Qed.
Lemma w14_fwd : later_fwd E0 w1 w4.
Proof.
  exists (tr_2 ++ (tr_3 ++ tr_4)). split; [|by compute].
  eapply run_app; [exact (stage_run _ _ _ _ _ w1_hist stage2)|].
  eapply run_app; [exact (stage_run _ _ _ _ _ w2_hist stage3)|exact (stage_run _ _ _ _ _ w3_hist stage4)].
Qed.
