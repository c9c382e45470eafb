(** The repository's own unit tests (/repo/tests), replayed on the model: every [it] of the two programs' suites, with
    its arrangement, its act and its assertions. These are tests, not proofs: they are evidence that the model behaves as
    the code's authors observe the code to behave, on the cases they chose. One theorem is added: the reference
    implementation the tests compare with is right.

    What is translated. A test's context is a world; an instruction sent by the test client is [lockup_exec] or
    [merkle_exec] with the accounts Anchor's client resolves (the addresses of the seeds and of the associated token
    accounts); [timeTravelTo], the funding of token accounts and lamport transfers are edits of the world. Expected
    failures: ACCOUNT_NOT_INITIALIZED is [EAccount], CONSTRAINT_ADDRESS and CONSTRAINT_RAW are [EConstraint], 0x0 (System:
    account in use) and 0x1 (Token: insufficient funds) are [ECpi], a program error is itself. The tests of the view
    instructions expect the client's "Cannot read properties of null": a failing simulation. *)
From Coq Require Import String Ascii.
From Verif Require Import Toy ToyRun PropSchedule Lockup.
Local Open Scope string_scope.
Local Open Scope Z_scope.
Local Open Scope list_scope.

Local Instance lockup_error_eq_dec : EqDecision lockup_error. Proof. solve_decision. Defined.
Local Instance merkle_error_eq_dec : EqDecision merkle_error. Proof. solve_decision. Defined.
Local Instance error_eq_dec : EqDecision error. Proof. solve_decision. Defined.
Local Instance status_eq_dec : EqDecision status. Proof. solve_decision. Defined.
Local Instance amounts_eq_dec : EqDecision amounts. Proof. solve_decision. Defined.
Local Instance timestamps_eq_dec : EqDecision timestamps. Proof. solve_decision. Defined.
Local Instance treasury_eq_dec : EqDecision treasury. Proof. solve_decision. Defined.

(** ** The tests' own reference implementation *)

(** tests/lockup/utils/calculations.ts:10-41: [getStreamedAmount], over arbitrary-precision integers; its last branch differs
    from the program's (which returns [withdrawn] there). *)
Definition ts_getStreamedAmount (su cu dep st cl en now : Z) : Z :=
  if now <? st then 0 else if now <? cl then su else if en <=? now then dep else
  let sum := su + cu in if dep <=? sum then dep else
  let from := if cl =? 0 then st else cl in
  let pct := (now - from) * SCALING_FACTOR / (en - from) in
  let r := sum + pct * (dep - sum) / SCALING_FACTOR in
  if dep <? r then dep else r.

(** It computes what [streamed_amount_of] returns, for every stream that is neither canceled nor depleted, at every time. *)
Theorem C01_client_replica : forall E w k nft s,
  env_ok E -> reachable E w -> stream_view E k nft w = Ok s -> s_canceled s = false -> s_depleted s = false ->
  streamed_amount_of E k nft w = Ok (ts_getStreamedAmount (start_unlock (s_amounts s)) (cliff_unlock (s_amounts s))
    (deposited (s_amounts s)) (t_start (s_times s)) (t_cliff (s_times s)) (t_end (s_times s)) (get_current_time w)).
Proof.
  intros E w k nft s HE Hr Hv Hc Hd.
  destruct (C01_streamed_amount E w k nft s HE Hr Hv Hc Hd) as (x & Hx & H1 & H2 & H3 & H4).
  rewrite Hx. f_equal. unfold ts_getStreamedAmount.
  destruct (Z.ltb_spec (get_current_time w) (t_start (s_times s))) as [Ha|Ha]; [exact (H1 Ha)|].
  destruct (Z.ltb_spec (get_current_time w) (t_cliff (s_times s))) as [Hb|Hb]; [apply H2; lia|].
  destruct (Z.leb_spec (t_end (s_times s)) (get_current_time w)) as [He|He]; [exact (H3 He)|].
  destruct (H4 Ha Hb He) as [H5 H6]. cbv zeta in H6 |- *. change (10 ^ 18) with SCALING_FACTOR in H6.
  destruct (Z.leb_spec (deposited (s_amounts s)) (start_unlock (s_amounts s) + cliff_unlock (s_amounts s))) as [Hf|Hf]; [lia|].
  rewrite <- Z.sub_add_distr in H6. rewrite <- H6.
  destruct (Z.ltb_spec (deposited (s_amounts s)) x) as [Hg|Hg]; [lia|reflexivity].
Qed.

(** ** The harness *)
Definition op : Type := world -> res world.
Definition lk (sg : list key) (ix : lockup_ix) : op := fun w => match lockup_exec E0 sg ix w with Ok (w', _) => Ok w' | Err e => Err e end.
Definition mk (sg : list key) (ix : merkle_ix) : op := fun w => match merkle_exec E0 sg ix w with Ok (w', _) => Ok w' | Err e => Err e end.
Definition at_time (t : Z) : op := fun w => Ok (T t w).
Fixpoint seq (os : list op) : op := fun w => match os with [] => Ok w | o :: os => match o w with Ok w' => seq os w' | Err e => Err e end end.
(** The arrangement succeeds, and the act fails with [e]. *)
Definition throws (w : world) (pre : list op) (act : op) (e : error) : bool :=
  match seq pre w with Ok w1 => match act w1 with Err e' => bool_decide (e = e') | Ok _ => false end | Err _ => false end.
(** The arrangement and the act succeed, and the assertions hold of the worlds before and after the act. *)
Definition yields (w : world) (pre : list op) (act : op) (check : world -> world -> bool) : bool :=
  match seq pre w with Ok w1 => match act w1 with Ok w2 => check w1 w2 | Err _ => false end | Err _ => false end.
(** The arrangement succeeds, and the view answers [a], or fails. *)
Definition views {A} `{EqDecision A} (w : world) (pre : list op) (view : world -> res A) (a : A) : bool :=
  match seq pre w with Ok w1 => match view w1 with Ok a' => bool_decide (a = a') | Err _ => false end | Err _ => false end.
Definition view_throws {A} (w : world) (pre : list op) (view : world -> res A) : bool :=
  match seq pre w with Ok w1 => match view w1 with Ok _ => false | Err _ => true end | Err _ => false end.

(** ** The context: tests/common/context.ts *)
Definition kUsdc : key := 5000.
Definition kDai : key := 5016.
Definition kRandom : key := 5024.
Definition kEve : key := 3000.
Definition kCreator : key := 8000.
Definition kClawback : key := 8008.
Definition kR1 : key := 8016.
Definition kR2 : key := 8024.
Definition kR3 : key := 8032.
Definition kPayer : key := 9000.
Definition users : list key := [kSender; kRecipient; kEve; kCollector; kCreator; kClawback; kR1; kR2; kR3].
Definition usdc (n : Z) : Z := n * 1000000.
Definition GENESIS : Z := 1754142441.
(** tests/common/chainlink-mock.ts: the account's price, timestamp and decimals. *)
Definition mock_feed : adata := DFeed kOracle (Answers (Round 16431789985 1754142441)) (Answers 8).
(** createATAAndFund *)
Definition fund (owner m : key) (tp : tprog) (n : Z) : op := fun w =>
  match wdat w !! m with
  | Some (DMint x) =>
      Ok (set_dat m (DMint (Mint (m_prog x) (m_supply x + n) (m_decimals x) (m_authority x) (m_freeze x)))
         (set_dat (ata owner m tp) (DToken (TokAcc tp m owner n false)) w))
  | _ => Err EAccount end.
Definition base : world := {|
  wlam := list_to_map (map (fun k => (k, 100000000000)) (kPayer :: users));
  wdat := list_to_map [(kUsdc, DMint (Mint SplToken 0 6 (Some kPayer) (Some kPayer)));
                       (kDai, DMint (Mint Token2022 0 9 (Some kPayer) (Some kPayer)));
                       (kRandom, DMint (Mint SplToken 0 6 (Some kPayer) (Some kPayer))); (kFeed, mock_feed)];
  wclock := GENESIS |}.
Definition funding : list op :=
  flat_map (fun k => [fund k kUsdc SplToken (usdc 1000000); fund k kDai Token2022 1000000000000000]) users.
Definition world_of (r : res world) : world := match r with Ok w => w | Err _ => base end.
(** simulateFeeGeneration: one SOL from the payer to the treasury. *)
Definition simulate_fees (treas : key) : op := fun w => system_transfer kPayer treas 1000000000 w.

Definition exists_in (w : world) (k : key) : bool := match wdat w !! k with Some _ => true | None => false end.
Definition bal (w : world) (k : key) : Z := match wdat w !! k with Some (DToken t) => t_amount t | _ => 0 end.
Definition supply_is (w : world) (k : key) (n : Z) : bool := match wdat w !! k with Some (DMint m) => m_supply m =? n | _ => false end.

(** ** Lockup: tests/lockup/context.ts, tests/lockup/utils/defaults.ts *)
Definition A_CLIFF : Z := 2500000001.
Definition A_DEPOSIT : Z := usdc 10000.
Definition A_WITHDRAW : Z := usdc 2600.
Definition A_REFUND : Z := A_DEPOSIT - A_WITHDRAW.
Definition T_START : Z := GENESIS + 1000.
Definition T_CLIFF : Z := T_START + 2500.
Definition T_END : Z := T_START + 10000.
Definition T_MID : Z := T_START + 2600.
Definition vault (salt : Z) (m : key) (tp : tprog) : key := ata (kStream kSender salt) m tp.

Definition rt_initialize : op :=
  lk [kSender] (LInitialize (InitializeAccs kSender kTreasury kCollData (kEdition kCollMint) (kMetadata kCollMint) kCollMint
    (ata kTreasury kCollMint SplToken) SplToken) kCollector kOracle kFeed).
Definition rt_create_accs (salt : Z) (m : key) (tp : tprog) : create_accs :=
  CreateAccs kSender (ata kSender m tp) kRecipient kSender kCollData (kEdition kCollMint) (kMetadata kCollMint) kCollMint
    m (kNft kSender salt) (ata kRecipient (kNft kSender salt) SplToken) (kStream kSender salt) (vault salt m tp)
    (kEdition (kNft kSender salt)) (kMetadata (kNft kSender salt)) tp SplToken.
Definition rt_create (salt : Z) (m : key) (tp : tprog) (deposit st cl en su cu : Z) (cancelable : bool) : op :=
  lk [kSender] (LCreateTs (rt_create_accs salt m tp) (CreateArgs salt deposit st cl en su cu cancelable)).
Definition rt_create_default (salt : Z) : op := rt_create salt kUsdc SplToken A_DEPOSIT T_START T_CLIFF T_END 0 A_CLIFF true.
Definition rt_create_2022 (salt : Z) : op := rt_create salt kDai Token2022 A_DEPOSIT T_START T_CLIFF T_END 0 A_CLIFF true.
Definition rt_create_random (salt : Z) : op := rt_create salt kRandom SplToken A_DEPOSIT T_START T_CLIFF T_END 0 A_CLIFF true.
Definition rt_create_dur (salt cliff : Z) : op :=
  lk [kSender] (LCreateDur (rt_create_accs salt kUsdc SplToken)
    (CreateDurArgs salt A_DEPOSIT cliff 10000 0 (if cliff =? 0 then 0 else A_CLIFF) true)).
Definition rt_cancel_of (salt : Z) (signer m : key) (tp : tprog) : op :=
  lk [signer] (LCancel (CancelAccs signer (ata signer m tp) m (kStream kSender salt) (vault salt m tp) (kNft kSender salt) tp)).
Definition rt_cancel (salt : Z) : op := rt_cancel_of salt kSender kUsdc SplToken.
Definition rt_renounce (salt : Z) (signer : key) : op := lk [signer] (LRenounce (RenounceAccs signer (kStream kSender salt) (kNft kSender salt))).
Definition rt_withdraw_accs (salt : Z) (signer to m : key) (tp : tprog) : withdraw_accs :=
  WithdrawAccs signer kRecipient to (ata to m tp) kTreasury m (ata kRecipient (kNft kSender salt) SplToken)
    (kStream kSender salt) (vault salt m tp) (kNft kSender salt) kOracle kFeed tp SplToken.
Definition rt_withdraw (salt amount : Z) (signer to m : key) (tp : tprog) : op :=
  lk [signer] (LWithdraw (rt_withdraw_accs salt signer to m tp) amount).
Definition rt_withdraw_max (salt : Z) : op := lk [kSender] (LWithdrawMax (rt_withdraw_accs salt kSender kRecipient kUsdc SplToken)).
Definition rt_collect (signer : key) : op := lk [signer] (LCollectFees (CollectAccs signer kSender kTreasury)).

(** The salts: the total supply of the collection at creation. *)
Definition dflt : Z := 0.
Definition nonCancelable : Z := 1.
Definition next_salt : Z := 2.
Definition nonExisting : Z := 1729.

(** setUpLockup with [initProgram: false], and with the two default streams. *)
Definition lw0 : world := lit
  (ltac:(let x := eval vm_compute in (lam_of (world_of (seq funding base))) in exact x))
  (ltac:(let x := eval vm_compute in (dat_of (world_of (seq funding base))) in exact x)) GENESIS.
Definition set_up : list op :=
  [rt_initialize; rt_create_default dflt; rt_create nonCancelable kUsdc SplToken A_DEPOSIT T_START T_CLIFF T_END 0 A_CLIFF false].
Example set_up_runs : (match seq funding base with Ok _ => true | _ => false end) && (match seq set_up lw0 with Ok _ => true | _ => false end) = true.
Proof. vm_compute. reflexivity. Qed.
Definition lw : world := lit
  (ltac:(let x := eval vm_compute in (lam_of (world_of (seq set_up lw0))) in exact x))
  (ltac:(let x := eval vm_compute in (dat_of (world_of (seq set_up lw0))) in exact x)) GENESIS.

(** assertEqStreamData against defaultStream (the bump is not compared). *)
Definition stream_is (w : world) (salt : Z) (m : key) (su cu ref wd st cl en : Z) (cancelable depleted canceled : bool) : bool :=
  match wdat w !! kStream kSender salt with
  | Some (DStream s) =>
      bool_decide (s_amounts s = Amounts su cu A_DEPOSIT ref wd) && bool_decide (s_times s = Timestamps cl en st)
      && (s_mint s =? m) && (s_salt s =? salt) && (s_sender s =? kSender)
      && Bool.eqb (s_cancelable s) cancelable && Bool.eqb (s_depleted s) depleted && Bool.eqb (s_canceled s) canceled
  | _ => false end.
Definition default_is (w : world) (salt : Z) (m : key) (ref wd : Z) (cancelable depleted canceled : bool) : bool :=
  stream_is w salt m 0 A_CLIFF ref wd T_START T_CLIFF T_END cancelable depleted canceled.

(** tests/lockup/unit/cancel.test.ts *)
Definition post_cancel (salt : Z) (m : key) (tp : tprog) (ref : Z) (depleted : bool) (w w' : world) : bool :=
  default_is w' salt m ref 0 false depleted true
  && (bal w' (ata kSender m tp) - bal w (ata kSender m tp) =? ref)
  && (bal w' (vault salt m tp) =? A_DEPOSIT - ref).
Definition mid : op := at_time T_MID.
Definition cancel_tests : list (string * bool) := [
  ("not initialized: should fail", throws lw0 [mid] (rt_cancel 1) EAccount);
  ("null stream: should fail", throws lw [mid] (rt_cancel nonExisting) EAccount);
  ("invalid deposited token mint: should fail", throws lw [mid] (rt_cancel_of dflt kSender kRandom SplToken) EAccount);
  ("DEPLETED: should fail", throws lw [mid; at_time T_END; rt_withdraw_max dflt] (rt_cancel dflt) (ELockup StreamDepleted));
  ("CANCELED: should fail", throws lw [mid; rt_cancel dflt] (rt_cancel dflt) (ELockup StreamCanceled));
  ("SETTLED: should fail", throws lw [mid; at_time T_END] (rt_cancel dflt) (ELockup StreamSettled));
  ("signer not sender: should fail", throws lw [mid] (rt_cancel_of dflt kRecipient kUsdc SplToken) EConstraint);
  ("non cancelable: should fail", throws lw [mid] (rt_cancel nonCancelable) (ELockup StreamIsNotCancelable));
  ("sender without ATA: should cancel (the test funds it first)",
     yields lw [mid; fund kSender kRandom SplToken A_DEPOSIT; rt_create_random next_salt]
       (rt_cancel_of next_salt kSender kRandom SplToken) (post_cancel next_salt kRandom SplToken A_REFUND false));
  ("PENDING: should cancel", yields lw [mid; at_time GENESIS] (rt_cancel dflt) (post_cancel dflt kUsdc SplToken A_DEPOSIT true));
  ("STREAMING, SPL: should cancel", yields lw [mid] (rt_cancel dflt) (post_cancel dflt kUsdc SplToken A_REFUND false));
  ("STREAMING, Token 2022: should cancel",
     yields lw [mid; rt_create_2022 next_salt] (rt_cancel_of next_salt kSender kDai Token2022) (post_cancel next_salt kDai Token2022 A_REFUND false))].
Example cancel_suite : forallb snd cancel_tests = true. Proof. vm_compute. reflexivity. Qed.

(** tests/lockup/unit/collectFees.test.ts *)
Definition collect_tests : list (string * bool) := [
  ("not initialized: should fail", throws lw0 [] (rt_collect kCollector) EAccount);
  ("not the fee collector: should fail", throws lw [simulate_fees kTreasury] (rt_collect kEve) EConstraint);
  ("no fees: should fail", throws lw [] (rt_collect kCollector) (ELockup CantCollectZeroFees));
  ("fees: should collect", yields lw [simulate_fees kTreasury] (rt_collect kCollector) (fun w w' =>
     (lam w kTreasury - lam w' kTreasury =? 1000000000 - 1000000) && (lam w' kSender - lam w kSender =? 1000000000 - 1000000)))].
Example collect_suite : forallb snd collect_tests = true. Proof. vm_compute. reflexivity. Qed.

(** tests/lockup/unit/createWithDurations.test.ts *)
Definition durations_tests : list (string * bool) := [
  ("not initialized: should fail", throws lw0 [at_time T_START] (rt_create_dur 0 2500) EAccount);
  ("cliff duration not zero: should create", yields lw [at_time T_START] (rt_create_dur next_salt 2500)
     (fun _ w' => default_is w' next_salt kUsdc 0 0 true false false));
  ("cliff duration zero: should create", yields lw [at_time T_START] (rt_create_dur next_salt 0)
     (fun _ w' => stream_is w' next_salt kUsdc 0 0 0 0 T_START 0 T_END true false false))].
Example durations_suite : forallb snd durations_tests = true. Proof. vm_compute. reflexivity. Qed.

(** tests/lockup/unit/createWithTimestamps.test.ts *)
Definition created (salt : Z) (m : key) (tp : tprog) (cu cl : Z) (w w' : world) : bool :=
  let nft := kNft kSender salt in let nft_ata := ata kRecipient nft SplToken in
  forallb (exists_in w') [nft; kStream kSender salt; vault salt m tp; kEdition nft; kMetadata nft; nft_ata]
  && stream_is w' salt m 0 cu 0 0 T_START cl T_END true false false
  && supply_is w' nft 1 && (bal w' nft_ata =? 1)
  && (bal w' (ata kSender m tp) =? bal w (ata kSender m tp) - A_DEPOSIT).
Definition rt_create_with (deposit st cl en su cu : Z) : op := rt_create next_salt kUsdc SplToken deposit st cl en su cu true.
Definition timestamps_tests : list (string * bool) := [
  ("not initialized: should fail", throws lw0 [] (rt_create_default 0) EAccount);
  ("deposit amount zero: should fail", throws lw [] (rt_create_with 0 T_START T_CLIFF T_END 0 A_CLIFF) (ELockup DepositAmountZero));
  ("start time zero: should fail", throws lw [] (rt_create_with A_DEPOSIT 0 T_CLIFF T_END 0 A_CLIFF) (ELockup StartTimeZero));
  ("sender lacks an ATA: should fail", throws lw [] (rt_create_random next_salt) EAccount);
  ("insufficient token balance: should fail", throws lw [] (rt_create_with (usdc 1000000 + 1) T_START T_CLIFF T_END 0 A_CLIFF) ECpi);
  ("cliff time zero, cliff unlock not zero: should fail",
     throws lw [] (rt_create_with A_DEPOSIT T_START 0 T_END 0 A_CLIFF) (ELockup CliffTimeZeroUnlockAmountNotZero));
  ("start not less than end: should fail",
     throws lw [] (rt_create_with A_DEPOSIT T_END 0 T_END 0 A_CLIFF) (ELockup StartTimeNotLessThanEndTime));
  ("start less than end: should create", yields lw [] (rt_create_with A_DEPOSIT T_START 0 T_END 0 0) (created next_salt kUsdc SplToken 0 0));
  ("start not less than cliff: should fail",
     throws lw [] (rt_create_with A_DEPOSIT T_CLIFF T_CLIFF T_END 0 A_CLIFF) (ELockup StartTimeNotLessThanCliffTime));
  ("cliff not less than end: should fail",
     throws lw [] (rt_create_with A_DEPOSIT T_START T_END T_END 0 A_CLIFF) (ELockup CliffTimeNotLessThanEndTime));
  ("unlock amounts exceed the deposit: should fail",
     throws lw [] (rt_create_with 1000 T_START T_CLIFF T_END 1000 1000) (ELockup UnlockAmountsSumTooHigh));
  ("SPL: should create", yields lw [] (rt_create_default next_salt) (created next_salt kUsdc SplToken A_CLIFF T_CLIFF));
  ("Token 2022: should create", yields lw [] (rt_create_2022 next_salt) (created next_salt kDai Token2022 A_CLIFF T_CLIFF))].
Example timestamps_suite : forallb snd timestamps_tests = true. Proof. vm_compute. reflexivity. Qed.

(** tests/lockup/unit/initialize.test.ts *)
Definition initialize_tests : list (string * bool) := [
  ("initialized: should fail", throws lw0 [rt_initialize] rt_initialize ECpi);
  ("not initialized: should initialize", yields lw0 [] rt_initialize (fun _ w' =>
     forallb (exists_in w') [kCollData; kTreasury; kCollMint; ata kTreasury kCollMint SplToken; kMetadata kCollMint; kEdition kCollMint]
     && supply_is w' kCollMint 1 && (bal w' (ata kTreasury kCollMint SplToken) =? 1)))].
Example initialize_suite : forallb snd initialize_tests = true. Proof. vm_compute. reflexivity. Qed.

(** tests/lockup/unit/renounce.test.ts *)
Definition renounce_tests : list (string * bool) := [
  ("not initialized: should fail", throws lw0 [] (rt_renounce 1 kSender) EAccount);
  ("null stream: should fail", throws lw [] (rt_renounce nonExisting kSender) EAccount);
  ("DEPLETED: should fail", throws lw [at_time T_END; rt_withdraw_max dflt] (rt_renounce dflt kSender) (ELockup StreamAlreadyNonCancelable));
  ("CANCELED: should fail", throws lw [rt_cancel dflt] (rt_renounce dflt kSender) (ELockup StreamAlreadyNonCancelable));
  ("SETTLED: should fail", throws lw [at_time T_END] (rt_renounce dflt kSender) (ELockup StreamAlreadyNonCancelable));
  ("signer not sender: should fail", throws lw [] (rt_renounce dflt kEve) EConstraint);
  ("non cancelable: should fail", throws lw [] (rt_renounce nonCancelable kSender) (ELockup StreamAlreadyNonCancelable));
  ("cancelable: should renounce", yields lw [] (rt_renounce dflt kSender) (fun _ w' => default_is w' dflt kUsdc 0 0 false false false))].
Example renounce_suite : forallb snd renounce_tests = true. Proof. vm_compute. reflexivity. Qed.

(** tests/lockup/unit/withdraw.test.ts *)
Definition post_withdraw (salt : Z) (m : key) (signer to_ata : key) (ref wd : Z) (cancelable depleted canceled : bool) (w w' : world) : bool :=
  default_is w' salt m ref wd cancelable depleted canceled
  && (match withdrawal_fee_in_lamports E0 kTreasury kOracle kFeed w' with
      | Ok fee => (lam w' signer <=? lam w signer - fee) && (lam w' kTreasury =? lam w kTreasury + fee)
      | Err _ => false end)
  && (bal w' to_ata =? bal w to_ata + wd).
Definition usual (signer to : key) (amount : Z) : op := rt_withdraw dflt amount signer to kUsdc SplToken.
Definition withdraw_tests : list (string * bool) := [
  ("not initialized: should fail", throws lw0 [mid] (rt_withdraw 1 A_WITHDRAW kRecipient kRecipient kUsdc SplToken) EAccount);
  ("null stream: should fail", throws lw [mid] (rt_withdraw nonExisting A_WITHDRAW kRecipient kRecipient kUsdc SplToken) EAccount);
  ("invalid deposited token mint: should fail", throws lw [mid] (rt_withdraw dflt A_WITHDRAW kRecipient kRecipient kRandom SplToken) EAccount);
  ("DEPLETED: should fail", throws lw [mid; at_time T_END; rt_withdraw_max dflt] (usual kRecipient kRecipient A_WITHDRAW) (ELockup StreamDepleted));
  ("zero amount: should fail", throws lw [mid] (usual kRecipient kRecipient 0) (ELockup WithdrawAmountZero));
  ("overdraw: should fail", throws lw [mid] (usual kRecipient kRecipient (A_WITHDRAW + 1)) (ELockup Overdraw));
  ("to a third party, signer not recipient: should fail", throws lw [mid] (usual kSender kSender A_WITHDRAW) EConstraint);
  ("recipient without ATA: should create the ATA",
     yields lw [mid; fund kSender kRandom SplToken A_DEPOSIT; rt_create_random next_salt]
       (rt_withdraw next_salt A_WITHDRAW kRecipient kRecipient kRandom SplToken)
       (fun w w' => negb (exists_in w (ata kRecipient kRandom SplToken)) && exists_in w' (ata kRecipient kRandom SplToken)));
  ("to a third party, signer recipient: should withdraw",
     yields lw [mid] (usual kRecipient kSender A_WITHDRAW)
       (post_withdraw dflt kUsdc kRecipient (ata kSender kUsdc SplToken) 0 A_WITHDRAW true false false));
  ("to the recipient, signer recipient: should withdraw",
     yields lw [mid] (usual kRecipient kRecipient A_WITHDRAW)
       (post_withdraw dflt kUsdc kRecipient (ata kRecipient kUsdc SplToken) 0 A_WITHDRAW true false false));
  ("SETTLED, signer not recipient: should withdraw",
     yields lw [mid; at_time T_END] (usual kSender kRecipient A_DEPOSIT)
       (post_withdraw dflt kUsdc kSender (ata kRecipient kUsdc SplToken) 0 A_DEPOSIT false true false));
  ("CANCELED, signer not recipient: should withdraw",
     yields lw [mid; rt_cancel dflt] (usual kSender kRecipient A_WITHDRAW)
       (post_withdraw dflt kUsdc kSender (ata kRecipient kUsdc SplToken) A_REFUND A_WITHDRAW false true true));
  ("STREAMING, SPL, signer not recipient: should withdraw",
     yields lw [mid] (usual kSender kRecipient A_WITHDRAW)
       (post_withdraw dflt kUsdc kSender (ata kRecipient kUsdc SplToken) 0 A_WITHDRAW true false false));
  ("STREAMING, Token 2022, signer not recipient: should withdraw",
     yields lw [mid; rt_create_2022 next_salt] (rt_withdraw next_salt A_WITHDRAW kSender kRecipient kDai Token2022)
       (post_withdraw next_salt kDai kSender (ata kRecipient kDai Token2022) 0 A_WITHDRAW true false false))].
Example withdraw_suite : forallb snd withdraw_tests = true. Proof. vm_compute. reflexivity. Qed.

(** tests/lockup/unit/withdrawMax.test.ts *)
Definition withdraw_max_tests : list (string * bool) := [
  ("not initialized: should fail", throws lw0 [] (rt_withdraw_max 1) EAccount);
  ("null stream: should fail", throws lw [] (rt_withdraw_max nonExisting) EAccount);
  ("end time not in the future: should withdraw",
     yields lw [at_time T_END] (rt_withdraw_max dflt) (fun _ w' => default_is w' dflt kUsdc 0 A_DEPOSIT false true false));
  ("end time in the future: should withdraw",
     yields lw [mid] (rt_withdraw_max dflt) (fun _ w' => default_is w' dflt kUsdc 0 A_WITHDRAW true false false))].
Example withdraw_max_suite : forallb snd withdraw_max_tests = true. Proof. vm_compute. reflexivity. Qed.

(** tests/lockup/unit/view: refundableAmountOf, statusOf, streamExists, streamedAmountOf, treasuryView, withdrawableAmountOf *)
Definition v_refundable (salt : Z) := refundable_amount_of E0 (kStream kSender salt) (kNft kSender salt).
Definition v_status (salt : Z) := status_of_view E0 (kStream kSender salt) (kNft kSender salt).
Definition v_streamed (salt : Z) := streamed_amount_of E0 (kStream kSender salt) (kNft kSender salt).
Definition v_withdrawable (salt : Z) := withdrawable_amount_of E0 (kStream kSender salt) (kNft kSender salt).
Definition v_exists (salt : Z) := stream_exists E0 (kNft kSender salt) kSender salt.
Definition rt_create_su (salt su : Z) : op := rt_create salt kUsdc SplToken A_DEPOSIT T_START T_CLIFF T_END su A_CLIFF true.
Definition view_tests : list (string * bool) := [
  ("refundable: null stream", view_throws lw [] (v_refundable nonExisting));
  ("refundable: non cancelable", views lw [] (v_refundable nonCancelable) 0);
  ("refundable: CANCELED", views lw [mid; rt_cancel dflt] (v_refundable dflt) 0);
  ("refundable: canceled and DEPLETED", views lw [mid; rt_cancel dflt; rt_withdraw_max dflt] (v_refundable dflt) 0);
  ("refundable: PENDING", views lw [at_time (T_START - 1)] (v_refundable dflt) A_DEPOSIT);
  ("refundable: STREAMING", views lw [mid] (v_refundable dflt) A_REFUND);
  ("refundable: SETTLED", views lw [at_time T_END] (v_refundable dflt) 0);
  ("refundable: DEPLETED", views lw [at_time T_END; rt_withdraw_max dflt] (v_refundable dflt) 0);
  ("status: null stream", view_throws lw [] (v_status nonExisting));
  ("status: DEPLETED", views lw [at_time T_END; rt_withdraw_max dflt] (v_status dflt) Depleted);
  ("status: CANCELED", views lw [mid; rt_cancel dflt] (v_status dflt) Canceled);
  ("status: PENDING", views lw [at_time (T_START - 1)] (v_status dflt) Pending);
  ("status: SETTLED", views lw [at_time T_END] (v_streamed dflt) A_DEPOSIT && views lw [at_time T_END] (v_status dflt) Settled);
  ("status: STREAMING", views lw [mid] (v_status dflt) Streaming);
  ("exists: null stream", views lw [] (v_exists nonExisting) false);
  ("exists: valid stream", views lw [] (v_exists dflt) true);
  ("streamed: null stream", view_throws lw [] (v_streamed nonExisting));
  ("streamed: CANCELED", views lw [mid; rt_cancel dflt] (v_streamed dflt) (usdc 2600));
  ("streamed: canceled and DEPLETED, also later",
     views lw [mid; rt_cancel dflt; rt_withdraw_max dflt] (v_streamed dflt) (usdc 2600)
     && views lw [mid; rt_cancel dflt; rt_withdraw_max dflt; at_time (T_MID + 10)] (v_streamed dflt) (usdc 2600));
  ("streamed: PENDING", views lw [at_time (T_START - 1)] (v_streamed dflt) 0);
  ("streamed: SETTLED", views lw [at_time T_END] (v_streamed dflt) A_DEPOSIT);
  ("streamed: DEPLETED", views lw [at_time T_END; rt_withdraw_max dflt] (v_streamed dflt) A_DEPOSIT);
  ("streamed: cliff time zero", views lw [rt_create next_salt kUsdc SplToken A_DEPOSIT T_START 0 T_END 0 0 true; mid] (v_streamed next_salt) (usdc 2600));
  ("streamed: cliff in the future", views lw [rt_create_su next_salt 1; at_time (T_CLIFF - 1)] (v_streamed next_salt) 1);
  ("streamed: cliff in the present", views lw [at_time T_CLIFF] (v_streamed dflt) A_CLIFF);
  ("streamed: cliff in the past, start unlock",
     views lw [rt_create_su next_salt 1; mid] (v_streamed next_salt) (ts_getStreamedAmount 1 A_CLIFF A_DEPOSIT T_START T_CLIFF T_END T_MID));
  ("streamed: cliff in the past, no unlock",
     views lw [rt_create next_salt kUsdc SplToken A_DEPOSIT T_START T_CLIFF T_END 0 0 true; mid] (v_streamed next_salt)
       (ts_getStreamedAmount 0 0 A_DEPOSIT T_START T_CLIFF T_END T_MID));
  ("streamed: cliff in the past, cliff unlock", views lw [mid] (v_streamed dflt) (usdc 2600));
  ("treasury: not initialized", view_throws lw0 [] (lockup_treasury_view E0 kTreasury));
  ("treasury: initialized", views lw [] (lockup_treasury_view E0 kTreasury)
     (Treasury (match find_program_address E0 PLockup [s_TREASURY] with Ok (_, b) => b | Err _ => 0 end) kCollector kOracle kFeed));
  ("withdrawable: null stream", view_throws lw [] (v_withdrawable nonExisting));
  ("withdrawable: CANCELED", views lw [mid; rt_cancel dflt] (v_withdrawable dflt) (usdc 2600));
  ("withdrawable: PENDING", views lw [at_time (T_START - 1)] (v_withdrawable dflt) 0);
  ("withdrawable: SETTLED", views lw [at_time T_END] (v_withdrawable dflt) A_DEPOSIT);
  ("withdrawable: DEPLETED", views lw [at_time T_END; rt_withdraw_max dflt] (v_withdrawable dflt) 0);
  ("withdrawable: cliff in the future", views lw [at_time (T_CLIFF - 1)] (v_withdrawable dflt) 0);
  ("withdrawable: no previous withdrawal", views lw [mid] (v_withdrawable dflt) (usdc 2600));
  ("withdrawable: previous withdrawal", views lw [mid; rt_withdraw_max dflt] (v_withdrawable dflt) 0)].
Example view_suite : forallb snd view_tests = true. Proof. vm_compute. reflexivity. Qed.

(** ** Merkle Instant: tests/merkle-instant/context.ts, tests/merkle-instant/utils *)
Definition A_AGGREGATE : Z := usdc 10000.
Definition A_CLAIM : Z := usdc 100.
Definition A_CLAWBACK : Z := usdc 1000.
(** [dayjs().add(10, "days")]: any time after the grace period. *)
Definition EXPIRATION : Z := 1763000000.
Definition POST_GRACE : Z := GENESIS + 7 * 24 * 60 * 60 + 1.
(** "HODL or Nothing", "Test Campaign", and the 59 bytes of the IPFS CID *)
Definition name_of (s : string) : bytes := map (fun c => Z.of_nat (Ascii.nat_of_ascii c)) (list_ascii_of_string s).
Definition NAME : bytes := Eval vm_compute in name_of "HODL or Nothing".
Definition TEST_NAME : bytes := Eval vm_compute in name_of "Test Campaign".
Definition CID : bytes := Eval vm_compute in name_of "bafkreiecpwdhvkmw4y6iihfndk7jhwjas3m5htm7nczovt6m37mucwgsrq".
(** The tree of the four leaves, with sorted pairs (merkletreejs). *)
Definition l0 : bytes := Eval vm_compute in leaf3 0 kRecipient A_CLAIM.
Definition l1 : bytes := Eval vm_compute in leaf3 1 kR1 A_CLAIM.
Definition l2 : bytes := Eval vm_compute in leaf3 2 kR2 A_CLAIM.
Definition l3 : bytes := Eval vm_compute in leaf3 3 kR3 A_CLAIM.
Definition n23 : bytes := Eval vm_compute in pair_hash l2 l3.
Definition root4 : bytes := Eval vm_compute in pair_hash (pair_hash l0 l1) n23.
Definition proof0 : list bytes := [l1; n23].

Definition camp (name : bytes) (m : key) : key := pda PMerkle (campaign_seeds kCreator root4 GENESIS EXPIRATION name m).
Definition transfer_tokens (from to : key) (n : Z) : op := fun w =>
  match wdat w !! from, wdat w !! to with
  | Some (DToken a), Some (DToken b) =>
      if t_amount a <? n then Err ECpi
      else Ok (set_dat to (DToken (with_amount b (t_amount b + n))) (set_dat from (DToken (with_amount a (t_amount a - n))) w))
  | _, _ => Err EAccount end.
(** [createCampaign] of the context, without and with its funding *)
Definition mt_create (name : bytes) (m : key) (tp : tprog) : op :=
  mk [kCreator] (MCreateCampaign (CampaignAccs kCreator m (camp name m) (ata (camp name m) m tp) tp)
    (CampaignArgs root4 GENESIS EXPIRATION name CID A_AGGREGATE 4)).
Definition mt_campaign (name : bytes) (m : key) (tp : tprog) : op :=
  seq [mt_create name m tp; transfer_tokens (ata kCreator m tp) (ata (camp name m) m tp) A_AGGREGATE].
Definition mt_initialize : op := mk [kCreator] (MInitialize kCreator kMTreasury kCollector kOracle kFeed).
Definition mt_claim_of (c claimer : key) (amount : Z) (m : key) (tp : tprog) : op :=
  mk [claimer] (MClaim (ClaimAccs claimer kRecipient (ata kRecipient m tp) kMTreasury m c (ata c m tp)
    (pda PMerkle (receipt_seeds c 0)) kOracle kFeed tp) 0 amount proof0).
Definition c0 : key := Eval vm_compute in camp NAME kUsdc.
Definition c2022 : key := Eval vm_compute in camp NAME kDai.
Definition mt_claim : op := mt_claim_of c0 kRecipient A_CLAIM kUsdc SplToken.
Definition mt_clawback_of (c signer m : key) (tp : tprog) : op :=
  mk [signer] (MClawback (ClawbackAccs signer kClawback (ata kClawback m tp) m c (ata c m tp) tp) A_CLAWBACK).
Definition mt_clawback : op := mt_clawback_of c0 kCreator kUsdc SplToken.
Definition mt_collect (signer : key) : op := mk [signer] (MCollectFees (CollectAccs signer kRecipient kMTreasury)).

Definition m_set_up : list op := [mt_initialize; mt_campaign NAME kUsdc SplToken; mt_campaign NAME kDai Token2022].
Example m_set_up_runs : (match seq m_set_up lw0 with Ok _ => true | _ => false end) = true.
Proof. vm_compute. reflexivity. Qed.
Definition mw : world := lit
  (ltac:(let x := eval vm_compute in (lam_of (world_of (seq m_set_up lw0))) in exact x))
  (ltac:(let x := eval vm_compute in (dat_of (world_of (seq m_set_up lw0))) in exact x)) GENESIS.

(** assertEqCampaignData against defaultCampaignData *)
Definition campaign_is (w : world) (k m : key) (name : bytes) (first : Z) : bool :=
  match wdat w !! k with
  | Some (DCampaign c) =>
      (c_mint c =? m) && (c_creator c =? kCreator) && (c_start c =? GENESIS) && (c_expiration c =? EXPIRATION)
      && (c_first_claim c =? first) && bool_decide (c_ipfs c = CID) && bool_decide (c_root c = root4) && bool_decide (c_name c = name)
  | _ => false end.
Definition first_claim_is (w : world) (k : key) (t : Z) : bool :=
  match campaign_view k w with Ok c => c_first_claim c =? t | Err _ => false end.
Definition claimed_is (w : world) (c : key) (b : bool) : bool :=
  match has_claimed E0 c (pda PMerkle (receipt_seeds c 0)) 0 w with Ok b' => Bool.eqb b b' | Err _ => false end.

(** tests/merkle-instant/unit/claim.test.ts: testClaim *)
Definition test_claim (w0 : world) (pre : list op) (c claimer m : key) (tp : tprog) : bool :=
  yields w0 pre (mt_claim_of c claimer A_CLAIM m tp) (fun w w' =>
    claimed_is w c0 false && first_claim_is w c 0 && first_claim_is w' c GENESIS && claimed_is w' c true
    && (bal w' (ata c m tp) =? bal w (ata c m tp) - A_CLAIM)
    && (bal w' (ata kRecipient m tp) =? bal w (ata kRecipient m tp) + A_CLAIM)
    && match claim_fee_in_lamports E0 kMTreasury kOracle kFeed w' with
       | Ok fee => (lam w' claimer <=? lam w claimer - fee) && (lam w' kMTreasury =? lam w kMTreasury + fee)
       | Err _ => false end).
Definition claim_tests : list (string * bool) := [
  ("not initialized, no campaign: should fail", throws lw0 [] (mt_claim_of 12345 kRecipient A_CLAIM kUsdc SplToken) EAccount);
  ("not initialized, campaign: should fail",
     throws lw0 [mt_campaign TEST_NAME kUsdc SplToken] (mt_claim_of (camp TEST_NAME kUsdc) kRecipient A_CLAIM kUsdc SplToken) EAccount);
  ("no campaign: should fail", throws mw [] (mt_claim_of 12345 kRecipient A_CLAIM kUsdc SplToken) EAccount);
  ("invalid mint: should fail", throws mw [] (mt_claim_of c0 kRecipient A_CLAIM kDai SplToken) EAccount);
  ("already claimed: should fail", throws mw [mt_claim] mt_claim ECpi);
  ("invalid proof: should fail", throws mw [] (mt_claim_of c0 kRecipient (A_CLAIM - 1) kUsdc SplToken) (EMerkle InvalidMerkleProof));
  ("not started: should fail", throws mw [at_time (GENESIS - 1)] mt_claim (EMerkle CampaignNotStarted));
  ("expired: should fail", throws mw [at_time EXPIRATION] mt_claim (EMerkle CampaignExpired));
  ("recipient without ATA: should claim",
     test_claim mw [fund kCreator kRandom SplToken A_AGGREGATE; mt_campaign NAME kRandom SplToken] (camp NAME kRandom) kRecipient kRandom SplToken);
  ("claimer not recipient: should claim", test_claim mw [] c0 kCreator kUsdc SplToken);
  ("SPL: should claim", test_claim mw [] c0 kRecipient kUsdc SplToken);
  ("Token 2022: should claim", test_claim mw [] c2022 kRecipient kDai Token2022)].
Example claim_suite : forallb snd claim_tests = true. Proof. vm_compute. reflexivity. Qed.

(** tests/merkle-instant/unit/clawback.test.ts: testClawback *)
Definition test_clawback (w0 : world) (pre : list op) (c m : key) (tp : tprog) : bool :=
  yields w0 pre (mt_clawback_of c kCreator m tp) (fun w w' =>
    (bal w (ata c m tp) =? bal w' (ata c m tp) + A_CLAWBACK) && (bal w (ata kClawback m tp) =? bal w' (ata kClawback m tp) - A_CLAWBACK)).
Definition clawback_tests : list (string * bool) := [
  ("not initialized: should fail", throws lw0 [] (mt_clawback_of 12345 kCreator kUsdc SplToken) EAccount);
  ("invalid campaign: should fail", throws mw [] (mt_clawback_of 12345 kCreator kUsdc SplToken) EAccount);
  ("invalid mint: should fail", throws mw [] (mt_clawback_of c0 kCreator kDai SplToken) EAccount);
  ("not the creator: should fail", throws mw [] (mt_clawback_of c0 kEve kUsdc SplToken) EConstraint);
  ("no claim yet: should clawback", test_clawback mw [] c0 kUsdc SplToken);
  ("grace period not passed: should clawback", test_clawback mw [mt_claim] c0 kUsdc SplToken);
  ("grace period passed, not expired: should fail", throws mw [mt_claim; at_time POST_GRACE] mt_clawback (EMerkle ClawbackNotAllowed));
  ("expired, recipient without ATA: should clawback",
     test_clawback mw [mt_claim; at_time POST_GRACE; at_time EXPIRATION; fund kCreator kRandom SplToken A_AGGREGATE; mt_campaign NAME kRandom SplToken]
       (camp NAME kRandom) kRandom SplToken);
  ("expired, SPL: should clawback", test_clawback mw [mt_claim; at_time POST_GRACE; at_time EXPIRATION] c0 kUsdc SplToken);
  ("expired, Token 2022: should clawback", test_clawback mw [mt_claim; at_time POST_GRACE; at_time EXPIRATION] c2022 kDai Token2022)].
Example clawback_suite : forallb snd clawback_tests = true. Proof. vm_compute. reflexivity. Qed.

(** tests/merkle-instant/unit/collectFees.test.ts, createCampaign.test.ts, initialize.test.ts, view/treasuryView.test.ts *)
Definition test_create (w0 : world) : bool :=
  yields w0 [] (mt_campaign TEST_NAME kUsdc SplToken) (fun _ w' => campaign_is w' (camp TEST_NAME kUsdc) kUsdc TEST_NAME 0).
Definition merkle_tests : list (string * bool) := [
  ("collectFees, not initialized: should fail", throws lw0 [] (mt_collect kCollector) EAccount);
  ("collectFees, not the fee collector: should fail", throws mw [simulate_fees kMTreasury] (mt_collect kEve) EConstraint);
  ("collectFees, no fees: should fail", throws mw [] (mt_collect kCollector) (EMerkle MCantCollectZeroFees));
  ("collectFees, fees: should collect", yields mw [simulate_fees kMTreasury] (mt_collect kCollector) (fun w w' =>
     (lam w kMTreasury - lam w' kMTreasury =? 1000000000 - 1000000) && (lam w' kRecipient - lam w kRecipient =? 1000000000 - 1000000)));
  ("createCampaign, not initialized: should create", test_create lw0);
  ("createCampaign, exists: should fail", throws mw [] (mt_create NAME kUsdc SplToken) ECpi);
  ("createCampaign: should create", test_create mw);
  ("initialize, initialized: should fail", throws lw0 [mt_initialize] mt_initialize ECpi);
  ("initialize: should initialize", yields lw0 [] mt_initialize (fun _ w' => exists_in w' kMTreasury));
  ("treasuryView, not initialized: should fail", view_throws lw0 [] (merkle_treasury_view E0 kMTreasury));
  ("treasuryView: should return the treasury", views mw [] (merkle_treasury_view E0 kMTreasury)
     (Treasury (match find_program_address E0 PMerkle [s_TREASURY] with Ok (_, b) => b | Err _ => 0 end) kCollector kOracle kFeed))].
Example merkle_suite : forallb snd merkle_tests = true. Proof. vm_compute. reflexivity. Qed.

(** All of them: 131 tests of the 20 files (the two programs' [view] suites included). *)
Definition all_tests : list (string * bool) :=
  cancel_tests ++ collect_tests ++ durations_tests ++ timestamps_tests ++ initialize_tests ++ renounce_tests ++ withdraw_tests
  ++ withdraw_max_tests ++ view_tests ++ claim_tests ++ clawback_tests ++ merkle_tests.
Example repo_tests_pass : (length all_tests =? 131)%nat && forallb snd all_tests = true.
Proof. vm_compute. reflexivity. Qed.
