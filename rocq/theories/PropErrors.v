(** C61: a program-specific error code names the reason of the failure. *)
From Verif Require Export PropLive PropClawback PropFees.

(** ** Error numbers: Anchor numbers the variants of an [#[error_code]] enum from 6000 in order
    (programs/lockup/src/utils/errors.rs:3-57, programs/merkle_instant/src/utils/errors.rs:3-28). *)
Definition lockup_code (e : lockup_error) : Z :=
  match e with
  | StreamDepleted => 6000 | StreamCanceled => 6001 | StreamIsNotCancelable => 6002 | StreamSettled => 6003
  | CantCollectZeroFees => 6004
  | CliffTimeNotLessThanEndTime => 6005 | CliffTimeZeroUnlockAmountNotZero => 6006 | DepositAmountZero => 6007
  | StartTimeNotLessThanCliffTime => 6008 | StartTimeNotLessThanEndTime => 6009 | StartTimeZero => 6010
  | UnlockAmountsSumTooHigh => 6011
  | StreamAlreadyNonCancelable => 6012
  | Overdraw => 6013 | WithdrawAmountZero => 6014
  end.
Definition merkle_code (e : merkle_error) : Z :=
  match e with
  | CampaignExpired => 6000 | InvalidMerkleProof => 6001 | CampaignNotStarted => 6002 | ClawbackNotAllowed => 6003
  | MCantCollectZeroFees => 6004
  end.
Theorem C61_codes_distinct : (forall e e', lockup_code e = lockup_code e' -> e = e') /\ (forall e e', merkle_code e = merkle_code e' -> e = e').
Proof. split; intros [] []; cbn; intros H; (reflexivity || lia). Qed.

(** ** Errors that are not the programs' own *)
Definition custom (e : error) : bool := match e with ELockup _ | EMerkle _ => true | _ => false end.
Definition nocustom {A} (r : res A) : Prop := forall e, r = Err e -> custom e = false.
Lemma nocustom_bind {A B} (r : res A) (f : A -> res B) : nocustom r -> (forall a, nocustom (f a)) -> nocustom (rbind r f).
Proof. intros Hr Hf. destruct r as [a|e]; cbn [rbind]; [apply Hf|]. intros e' [= ->]. by apply Hr. Qed.
Lemma nocustom_ok {A} (a : A) : nocustom (Ok a). Proof. by intros ?. Qed.
Lemma nocustom_err {A} e : custom e = false -> nocustom (Err (A:=A) e). Proof. by intros ? ? [= <-]. Qed.
Lemma nocustom_ensure b e : custom e = false -> nocustom (ensure b e).
Proof. intros He x. unfold ensure. destruct b; [done|]. by intros [= <-]. Qed.
Lemma custom_bind {A B} (r : res A) (f : A -> res B) e : nocustom r -> rbind r f = Err e -> custom e = true -> exists a, r = Ok a /\ f a = Err e.
Proof. intros Hr H Hc. destruct r as [a|e0]; cbn [rbind] in H; [by exists a|]. injection H as ->. rewrite (Hr e eq_refl) in Hc. discriminate. Qed.
Section nocustoms.
Local Transparent find_program_address.
Lemma nocustom_fpa E p seeds : nocustom (find_program_address E p seeds).
Proof. intros e. unfold find_program_address, of_option. destruct (find_bump E p seeds 255); [done|]. by intros [= <-]. Qed.
Local Transparent ata_address.
Lemma nocustom_ata E o m tp : nocustom (ata_address E o m tp).
Proof. unfold ata_address. apply nocustom_bind; [apply nocustom_fpa|]. intros ?. apply nocustom_ok. Qed.
Local Transparent nft_name.
Lemma nocustom_name m : nocustom (nft_name m).
Proof. intros e. unfold nft_name. cbv zeta. destruct (_ <? _)%nat; [|done]. by intros [= <-]. Qed.
End nocustoms.
Ltac nocustom :=
  repeat (first
    [ apply nocustom_ok | apply nocustom_err; reflexivity | apply nocustom_bind; [|intros ?] | apply nocustom_ensure; reflexivity | apply nocustom_fpa | apply nocustom_ata | apply nocustom_name
    | match goal with
      | |- nocustom (match ?x with _ => _ end) => destruct x eqn:?
      | |- nocustom (let _ := _ in _) => cbv zeta
      | |- nocustom (load_token _ _) => unfold load_token
      | |- nocustom (load_mint _ _) => unfold load_mint
      | |- nocustom (load_stream _ _) => unfold load_stream
      | |- nocustom (load_campaign _ _) => unfold load_campaign
      | |- nocustom (load_lockup_treasury _ _) => unfold load_lockup_treasury
      | |- nocustom (load_merkle_treasury _ _) => unfold load_merkle_treasury
      | |- nocustom (check_signer _ _) => unfold check_signer
      | |- nocustom (check_address _ _) => unfold check_address
      | |- nocustom (check_seeds_bump _ _ _ _ _) => unfold check_seeds_bump
      | |- nocustom (check_seeds _ _ _ _) => unfold check_seeds
      | |- nocustom (check_ata _ _ _ _ _ _) => unfold check_ata
      | |- nocustom (init_ata_if_needed _ _ _ _ _ _ _) => unfold init_ata_if_needed
      | |- nocustom (create_ata _ _ _ _ _ _ _) => unfold create_ata
      | |- nocustom (init_account _ _ _ _ _ _) => unfold init_account
      | |- nocustom (fund_account _ _ _ _ _) => unfold fund_account
      | |- nocustom (system_transfer _ _ _ _) => unfold system_transfer
      | |- nocustom (transfer_checked _ _ _ _ _ _ _ _ _ _) => unfold transfer_checked
      | |- nocustom (charge_fee _ _ _ _ _ _) => unfold charge_fee
      | |- nocustom (convert_usd_fee_to_lamports _ _ _ _) => unfold convert_usd_fee_to_lamports
      | |- nocustom (convert_fee _ _ _ _) => unfold convert_fee
      | |- nocustom (fee_from_price _ _ _) => unfold fee_from_price
      | |- nocustom (stream_withdraw _ _) => unfold stream_withdraw
      | |- nocustom (get_withdrawable_amount _ _ _ _ _) => unfold get_withdrawable_amount
      | |- nocustom (create_mint _ _ _ _ _ _ _ _) => unfold create_mint
      | |- nocustom (mint_to _ _ _ _ _ _ _) => unfold mint_to
      | |- nocustom (create_metadata _ _ _ _ _ _ _ _ _ _ _) => unfold create_metadata
      | |- nocustom (create_master_edition _ _ _ _ _ _ _ _) => unfold create_master_edition
      | |- nocustom (set_and_verify_collection _ _ _ _ _ _ _ _) => unfold set_and_verify_collection
      | |- nocustom (sign_metadata _ _ _) => unfold sign_metadata
      | |- nocustom (load_nft_collection _ _) => unfold load_nft_collection
      | |- nocustom (nft_create_stream _ _ _ _) => unfold nft_create_stream
      | |- nocustom (safe_collectible_amount _ _ _) => unfold safe_collectible_amount
      | |- nocustom (move_lamports _ _ _ _) => unfold move_lamports
      | |- nocustom (u64_add _ _) => unfold u64_add
      | |- nocustom (of_option _ _) => unfold of_option
      | |- nocustom (u64_sub _ _) => unfold u64_sub
      | |- nocustom (u64_mul _ _) => unfold u64_mul
      | |- nocustom (u64_div _ _) => unfold u64_div
      | |- nocustom (u128_mul _ _) => unfold u128_mul
      | |- nocustom (u128_div _ _) => unfold u128_div
      | |- nocustom (u128_pow _ _) => unfold u128_pow
      end ]).
Lemma nocustom_init_ata E p k o m tp w : nocustom (init_ata_if_needed E p k o m tp w). Proof. nocustom. Qed.
Lemma nocustom_transfer E tp f t au sg m am d w : nocustom (transfer_checked E tp f t au sg m am d w). Proof. nocustom. Qed.
Lemma nocustom_charge f p c s t w : nocustom (charge_fee f p c s t w). Proof. nocustom. Qed.
Lemma nocustom_check_ata E k t o m tp : nocustom (check_ata E k t o m tp). Proof. nocustom. Qed.

(** ** Requirements in the order they are checked *)
(** [e] is the error of the first requirement that does not hold. *)
Definition first_broken (reqs : list (Prop * error)) (e : error) : Prop :=
  exists l1 (P : Prop) l2, reqs = l1 ++ (P, e) :: l2 /\ Forall (fun r => fst r) l1 /\ ~ P.
Lemma fb_here (P : Prop) e reqs : ~ P -> first_broken ((P, e) :: reqs) e.
Proof. intros H. exists [], P, reqs. split; [done|]. by split; [constructor|]. Qed.
Lemma fb_next (P : Prop) e0 reqs e : P -> first_broken reqs e -> first_broken ((P, e0) :: reqs) e.
Proof. intros HP (l1 & Q & l2 & -> & Hall & HQ). exists ((P, e0) :: l1), Q, l2. split; [done|]. split; [by constructor|done]. Qed.
Lemma fb_inv (P : Prop) e0 reqs e : first_broken ((P, e0) :: reqs) e -> (~ P /\ e = e0) \/ (P /\ first_broken reqs e).
Proof.
  intros (l1 & Q & l2 & Heq & Hall & HQ). destruct l1 as [|x l1]; cbn in Heq.
  - injection Heq as -> -> ->. by left.
  - injection Heq as <- ->. apply Forall_cons in Hall as [HP Hall]. right. split; [exact HP|]. by exists l1, Q, l2.
Qed.
Lemma fb_nil e : ~ first_broken [] e.
Proof. intros (l1 & Q & l2 & Heq & _). by destruct l1. Qed.

Definition cancel_requirements (s : stream_data) (now : Z) : list (Prop * error) :=
  [ (s_depleted s = false, ELockup StreamDepleted); (s_canceled s = false, ELockup StreamCanceled);
    (s_cancelable s = true, ELockup StreamIsNotCancelable); (entitled s now < deposited (s_amounts s), ELockup StreamSettled) ].
Definition renounce_requirements (s : stream_data) (now : Z) : list (Prop * error) :=
  [ (s_cancelable s = true /\ entitled s now < deposited (s_amounts s), ELockup StreamAlreadyNonCancelable) ].
Definition withdraw_requirements (s : stream_data) (amount now : Z) : list (Prop * error) :=
  [ (s_depleted s = false, ELockup StreamDepleted); (amount <> 0, ELockup WithdrawAmountZero);
    (amount <= entitled s now - withdrawn (s_amounts s), ELockup Overdraw) ].
(** [withdraw_max] never overdraws. *)
Definition withdraw_max_requirements (s : stream_data) (now : Z) : list (Prop * error) :=
  [ (s_depleted s = false, ELockup StreamDepleted); (entitled s now - withdrawn (s_amounts s) <> 0, ELockup WithdrawAmountZero) ].
Definition claim_requirements (H : bytes -> bytes) (c : campaign) (e : airdrop) (proof : list bytes) (now : Z) : list (Prop * error) :=
  [ (c_start c <= now, EMerkle CampaignNotStarted); (c_expiration c = 0 \/ now < c_expiration c, EMerkle CampaignExpired);
    (* hashing the entry up along the proof gives the root *)
    (climb_end H (H (H (entry_bytes e))) proof = c_root c, EMerkle InvalidMerkleProof) ].
Definition clawback_requirements (c : campaign) (now : Z) : list (Prop * error) :=
  [ (clawback_allowed c now, EMerkle ClawbackNotAllowed) ].

Ltac fb_done := repeat match goal with
  | H : first_broken [] _ |- _ => by destruct (fb_nil _ H)
  | H : first_broken (_ :: _) _ |- _ => apply fb_inv in H as [[? ->]|[? H]]
  end.

(** ** The checks *)

Lemma cancel_first s now e :
  check_cancel (s_cancelable s) (s_depleted s) (s_canceled s) (entitled s now) (deposited (s_amounts s)) = Err e <->
  first_broken (cancel_requirements s now) e.
Proof.
  unfold check_cancel, cancel_requirements. destruct (s_depleted s), (s_canceled s), (s_cancelable s); cbn [negb];
    destruct (Z.leb_spec (deposited (s_amounts s)) (entitled s now)); (split; [intros [= <-] || intros [=]|intros Hf; fb_done]);
    try (repeat (apply fb_next; [done|]); apply fb_here; (lia || discriminate)); try done; lia.
Qed.
Lemma renounce_first s now e :
  check_renounce (s_cancelable s) (deposited (s_amounts s)) (entitled s now) = Err e <-> first_broken (renounce_requirements s now) e.
Proof.
  unfold check_renounce, renounce_requirements. destruct (s_cancelable s); cbn [negb orb];
    destruct (Z.leb_spec (deposited (s_amounts s)) (entitled s now)); (split; [intros [= <-] || intros [=]|intros Hf; fb_done]);
    try (apply fb_here; intros []; (lia || discriminate)); try done; exfalso; tauto.
Qed.
Lemma withdraw_first s amount now e :
  check_withdraw (s_depleted s) amount (entitled s now - withdrawn (s_amounts s)) = Err e <-> first_broken (withdraw_requirements s amount now) e.
Proof.
  unfold check_withdraw, withdraw_requirements. destruct (s_depleted s); destruct (Z.eqb_spec amount 0);
    destruct (Z.ltb_spec (entitled s now - withdrawn (s_amounts s)) amount); (split; [intros [= <-] || intros [=]|intros Hf; fb_done]);
    try (repeat (apply fb_next; [done|]); apply fb_here; (lia || discriminate)); try done; lia.
Qed.
Lemma claim_first E c i am r pf now e : 0 <= c_expiration c -> hash_ok (keccak E) -> Forall is_hash32 pf ->
  check_claim E now am (c_start c) (c_expiration c) i pf (c_root c) r = Err e <-> first_broken (claim_requirements (keccak E) c (Entry i r am) pf now) e.
Proof.
  intros Hex HH Hpf. unfold check_claim, claim_requirements, has_campaign_started, has_expired, bytes_eqb.
  unfold leaf_hash. rewrite merkle_loop_climb by done. unfold entry_bytes. cbn [e_index e_recipient e_amount].
  set (h := climb_end _ _ _).
  destruct (Z.leb_spec (c_start c) now); cbn [negb].
  2:{ split; [intros [= <-]; apply fb_here; lia|intros Hf; fb_done; [done|lia..]]. }
  destruct (Z.ltb_spec 0 (c_expiration c)), (Z.leb_spec (c_expiration c) now); cbn [andb].
  all: try (split; [intros [= <-]; apply fb_next; [done|]; apply fb_here; lia|intros Hf; fb_done; (done || lia)]; fail).
  all: destruct (decide (h = c_root c)) as [Hd|Hd];
    [rewrite bool_decide_true by done|rewrite bool_decide_false by done]; cbn [negb];
    (split; [intros [= <-] || intros [=]|intros Hf; fb_done]); try done; try lia.
  all: apply fb_next; [done|]; apply fb_next; [lia|]; apply fb_here; done.
Qed.
Lemma clawback_first c now e : 0 <= c_expiration c -> 0 <= c_first_claim c ->
  custom e = true -> check_clawback now (c_expiration c) (c_first_claim c) = Err e -> first_broken (clawback_requirements c now) e.
Proof.
  intros He Hf Hce H. unfold check_clawback in H. destruct (has_grace_period_passed _ _) as [b|] eqn:Hg; cbn [rbind] in H.
  2:{ injection H as ->. unfold has_grace_period_passed, u64_add in Hg. destruct (0 <? _); [|done]. destruct (_ <=? _); [done|]. cbn in Hg. injection Hg as <-. discriminate. }
  pose proof (grace_fun _ _ Hf _ Hg) as Hb. destruct b; [|done]. cbn [andb] in H.
  destruct (has_expired now (c_expiration c)) eqn:Hx; cbn [negb] in H; [done|]. injection H as <-. apply fb_here.
  assert (~ expired c now) as Hnx by (rewrite <-expired_fun by done; by rewrite Hx).
  intros [?|[?|?]]; [|lia|done]. destruct (proj1 Hb eq_refl). lia.
Qed.

(** ** The instructions *)
(** [r] is a failure outside the programs' own checks, or it is [rest] after the check [chk] passes. *)
Definition checked {A B} (r : res A) (chk : res B) (rest : B -> res A) : Prop := r = rbind chk rest /\ forall b, nocustom (rest b).
Definition elsewhere {A} (r : res A) : Prop := exists e, r = Err e /\ custom e = false.
Lemma checked_reason {A B} (r : res A) (chk : res B) rest : checked r chk rest ->
  (forall e, r = Err e -> custom e = true -> chk = Err e) /\ (forall e, chk = Err e -> r = Err e).
Proof.
  intros [-> Hp]. split.
  - intros e He Hc. destruct chk as [b|e0]; cbn [rbind] in He; [|congruence]. rewrite (Hp b e He) in Hc. discriminate.
  - by intros e ->.
Qed.
Lemma elsewhere_bind {A B} (x : res A) (f : A -> res B) : nocustom x -> elsewhere (rbind x f) \/ exists a, x = Ok a /\ rbind x f = f a.
Proof. intros Hx. destruct x as [a|e]; cbn [rbind]; [right; by exists a|]. left. exists e. split; [done|]. by apply Hx. Qed.
Ltac past a H := match goal with
  | |- elsewhere (rbind ?x ?f) \/ _ => let Hb := fresh in
      destruct (elsewhere_bind x f) as [?|(a & H & Hb)]; [solve [nocustom]|by left|rewrite Hb; clear Hb]
  end.
Lemma init_ata_time E p k o m tp w w' : init_ata_if_needed E p k o m tp w = Ok w' -> get_current_time w' = get_current_time w.
Proof. intros H. apply init_ata_if_needed_ok in H as (_ & t & _ & _ & _ & _ & Hd). apply now_same. apply Hd. Qed.

Lemma cancel_phase E sg a w : inv E w -> elsewhere (lockup_exec E sg (LCancel a) w) \/
  exists s rest, stream_view E (xa_stream a) (xa_nft_mint a) w = Ok s /\
    checked (lockup_exec E sg (LCancel a) w)
      (check_cancel (s_cancelable s) (s_depleted s) (s_canceled s) (entitled s (get_current_time w)) (deposited (s_amounts s))) rest.
Proof.
  intros Hi. unfold lockup_exec. past u0 H0. unfold Lockup.cancel. past u1 H1. past m H2. past s H3. past vt H4. past nm H5. past wx1 H6.
  past u7 H7. past u8 H8. past u9 H9. past u10 H10. right.
  assert (stream_view E (xa_stream a) (xa_nft_mint a) w = Ok s) as Hv.
  { unfold stream_view. rewrite H3, H5. cbn [rbind]. rewrite H9. done. }
  apply load_stream_ok in H3 as Hs. pose proof (inv_stream_ok _ _ _ _ Hi Hs) as Hok.
  rewrite (init_ata_time _ _ _ _ _ _ _ _ H6). rewrite streamed_entitled by (done || apply now_range). cbn [rbind].
  eexists s, _. split; [exact Hv|]. split; [reflexivity|]. intros ?. nocustom.
Qed.
Lemma renounce_phase E sg a w : inv E w -> elsewhere (lockup_exec E sg (LRenounce a) w) \/
  exists s rest, stream_view E (ra_stream a) (ra_nft_mint a) w = Ok s /\
    checked (lockup_exec E sg (LRenounce a) w) (check_renounce (s_cancelable s) (deposited (s_amounts s)) (entitled s (get_current_time w))) rest.
Proof.
  intros Hi. unfold lockup_exec. past u0 H0. unfold renounce. past u1 H1. past s H3. past nm H5. past u4 H4. past u6 H6. right.
  assert (stream_view E (ra_stream a) (ra_nft_mint a) w = Ok s) as Hv.
  { unfold stream_view. rewrite H3, H5. cbn [rbind]. rewrite H6. done. }
  apply load_stream_ok in H3 as Hs. pose proof (inv_stream_ok _ _ _ _ Hi Hs) as Hok.
  rewrite streamed_entitled by (done || apply now_range). cbn [rbind].
  eexists s, _. split; [exact Hv|]. split; [reflexivity|]. intros ?. nocustom.
Qed.
Lemma withdraw_accounts_phase E sg a w x : withdraw_accounts E sg a w = Ok x ->
  exists s m w1, x = (w1, s, m) /\ get_current_time w1 = get_current_time w /\ stream_view E (wa_stream a) (wa_nft_mint a) w = Ok s.
Proof.
  intros H. unfold withdraw_accounts in H. inv_all H.
  match goal with H : init_ata_if_needed _ _ _ _ _ _ _ = Ok _ |- _ => apply init_ata_time in H end.
  injection H as <-. eexists _, _, _. split; [reflexivity|]. split; [done|]. unfold stream_view.
  repeat match goal with H : load_stream _ _ = Ok _ |- _ => rewrite H; clear H | H : load_mint _ (wa_nft_mint a) = Ok _ |- _ => rewrite H; clear H end.
  cbn [rbind]. match goal with H : check_seeds_bump _ _ (stream_seeds _) _ _ = Ok _ |- _ => rewrite H end. done.
Qed.
Lemma withdrawable_time E w s now : inv E w -> (exists k, wdat w !! k = Some (DStream s)) -> 0 <= now <= U64_MAX ->
  get_withdrawable_amount now (s_times s) (s_amounts s) (s_depleted s) (s_canceled s) = Ok (entitled s now - withdrawn (s_amounts s)) \/
  exists e, get_withdrawable_amount now (s_times s) (s_amounts s) (s_depleted s) (s_canceled s) = Err e /\ custom e = false.
Proof.
  intros Hi [k Hk] Hn. pose proof (inv_stream_ok _ _ _ _ Hi Hk) as Hok. unfold get_withdrawable_amount. rewrite streamed_entitled by done. cbn [rbind].
  unfold u64_sub. destruct (_ <=? _); [by left|]. right. by eexists.
Qed.
Lemma withdraw_phase E sg a amount w : inv E w -> elsewhere (lockup_exec E sg (LWithdraw a amount) w) \/
  exists s rest, stream_view E (wa_stream a) (wa_nft_mint a) w = Ok s /\
    checked (lockup_exec E sg (LWithdraw a amount) w) (check_withdraw (s_depleted s) amount (entitled s (get_current_time w) - withdrawn (s_amounts s))) rest.
Proof.
  intros Hi. unfold lockup_exec. past u0 H0. unfold withdraw.
  destruct (elsewhere_bind (withdraw_accounts E sg a w) (fun '(w0, s, m) => withdraw_handler E a amount s m w0)) as [?|(x & H1 & Hb)];
    [unfold withdraw_accounts; nocustom|by left|rewrite Hb; clear Hb].
  destruct (withdraw_accounts_phase _ _ _ _ _ H1) as (s & m & w1 & -> & Ht & Hv). unfold withdraw_handler. rewrite Ht.
  destruct (stream_view_inv _ _ _ _ _ Hv) as (Hs & _).
  destruct (withdrawable_time E w s (get_current_time w) Hi (ex_intro _ _ Hs) (now_range w)) as [->|(e & -> & He)]; cbn [rbind].
  2:{ left. by exists e. }
  right. eexists s, _. split; [exact Hv|]. split; [reflexivity|]. intros ?. nocustom.
Qed.
Lemma withdraw_max_phase E sg a w : inv E w -> elsewhere (lockup_exec E sg (LWithdrawMax a) w) \/
  exists s rest, stream_view E (wa_stream a) (wa_nft_mint a) w = Ok s /\
    checked (lockup_exec E sg (LWithdrawMax a) w)
      (check_withdraw (s_depleted s) (entitled s (get_current_time w) - withdrawn (s_amounts s)) (entitled s (get_current_time w) - withdrawn (s_amounts s))) rest.
Proof.
  intros Hi. unfold lockup_exec. past u0 H0. unfold withdraw_max.
  match goal with |- elsewhere (rbind ?x ?f) \/ _ => destruct (elsewhere_bind x f) as [?|(x0 & H1 & Hb)];
    [unfold withdraw_accounts; nocustom|by left|rewrite Hb; clear Hb] end.
  destruct (withdraw_accounts_phase _ _ _ _ _ H1) as (s & m & w1 & -> & Ht & Hv). unfold withdraw_handler. rewrite Ht.
  destruct (stream_view_inv _ _ _ _ _ Hv) as (Hs & _).
  destruct (withdrawable_time E w s (get_current_time w) Hi (ex_intro _ _ Hs) (now_range w)) as [->|(e & -> & He)]; cbn [rbind].
  2:{ left. by exists e. }
  right. eexists s, _. split; [exact Hv|]. split; [reflexivity|]. intros ?. nocustom.
Qed.
Lemma claim_phase E sg a i am pf w : elsewhere (merkle_exec E sg (MClaim a i am pf) w) \/
  exists c rest, campaign_view (la_campaign a) w = Ok c /\ forallb is_hash pf = true /\
    checked (merkle_exec E sg (MClaim a i am pf) w) (check_claim E (get_current_time w) am (c_start c) (c_expiration c) i pf (c_root c) (la_recipient a)) rest.
Proof.
  unfold merkle_exec. past u0 H0. unfold claim. past u1 H1. past tr H2. past m H3. past c H4. past vt H5. past wx1 H6. past b H7. past wx2 H8.
  past u9 H9. past u10 H10. past u11 H11. past u12 H12. past u13 H13. right.
  assert (get_current_time wx2 = get_current_time w) as ->.
  { rewrite <-(init_ata_time _ _ _ _ _ _ _ _ H6). apply now_same. apply init_account_ok in H8 as (_ & _ & Hd & _). apply Hd. }
  eexists c, _. split; [exact H4|]. split.
  { unfold ensure in H0. destruct (merkle_ix_ok _) eqn:Hok; [|done]. cbn in Hok. clear - Hok. ranges. done. }
  split; [reflexivity|]. intros ?. nocustom.
Qed.
Lemma clawback_phase E sg a am w : elsewhere (merkle_exec E sg (MClawback a am) w) \/
  exists c rest, campaign_view (ba_campaign a) w = Ok c /\
    checked (merkle_exec E sg (MClawback a am) w) (check_clawback (get_current_time w) (c_expiration c) (c_first_claim c)) rest.
Proof.
  unfold merkle_exec. past u0 H0. unfold clawback. past u1 H1. past m H3. past c H4. past vt H5. past wx1 H6. past u7 H7. past u8 H8. past u9 H9. right.
  rewrite (init_ata_time _ _ _ _ _ _ _ _ H6).
  eexists c, _. split; [exact H4|]. split; [reflexivity|]. intros ?. nocustom.
Qed.

(** ** C61: the reported code is the one of the first broken requirement of the stream or campaign *)
Lemma phase_reason {A B} (r : res A) (chk : res B) rest (reqs : list (Prop * error)) :
  checked r chk rest -> (forall e, chk = Err e -> custom e = true -> first_broken reqs e) -> forall e, r = Err e -> custom e = true -> first_broken reqs e.
Proof. intros Hc Hf e He Hce. apply checked_reason in Hc as [Hc _]. apply Hf; [|done]. by apply Hc. Qed.
Lemma not_elsewhere {A} (r : res A) e : r = Err e -> custom e = true -> elsewhere r -> False.
Proof. intros -> Hc (e' & [= <-] & He'). congruence. Qed.

Theorem C61_cancel : forall E sg a w, env_ok E -> reachable E w ->
  (forall e, lockup_exec E sg (LCancel a) w = Err e -> custom e = true ->
    exists s, stream_view E (xa_stream a) (xa_nft_mint a) w = Ok s /\ first_broken (cancel_requirements s (get_current_time w)) e) /\
  (forall s e, stream_view E (xa_stream a) (xa_nft_mint a) w = Ok s -> first_broken (cancel_requirements s (get_current_time w)) e ->
    lockup_exec E sg (LCancel a) w = Err e \/ elsewhere (lockup_exec E sg (LCancel a) w)).
Proof.
  intros E sg a w HE Hr. pose proof (reachable_inv _ _ HE Hr) as Hi. destruct (cancel_phase E sg a w Hi) as [He|(s & rest & Hv & Hc)].
  - split; [intros e H1 H2; destruct (not_elsewhere _ _ H1 H2 He)|intros; by right].
  - destruct (checked_reason _ _ _ Hc) as [C1 C2]. split.
    + intros e H1 H2. exists s. split; [exact Hv|]. apply cancel_first. by apply C1.
    + intros s' e Hs' Hf. assert (s' = s) as -> by congruence. left. apply C2. by apply cancel_first.
Qed.
Theorem C61_renounce : forall E sg a w, env_ok E -> reachable E w ->
  (forall e, lockup_exec E sg (LRenounce a) w = Err e -> custom e = true ->
    exists s, stream_view E (ra_stream a) (ra_nft_mint a) w = Ok s /\ first_broken (renounce_requirements s (get_current_time w)) e) /\
  (forall s e, stream_view E (ra_stream a) (ra_nft_mint a) w = Ok s -> first_broken (renounce_requirements s (get_current_time w)) e ->
    lockup_exec E sg (LRenounce a) w = Err e \/ elsewhere (lockup_exec E sg (LRenounce a) w)).
Proof.
  intros E sg a w HE Hr. pose proof (reachable_inv _ _ HE Hr) as Hi. destruct (renounce_phase E sg a w Hi) as [He|(s & rest & Hv & Hc)].
  - split; [intros e H1 H2; destruct (not_elsewhere _ _ H1 H2 He)|intros; by right].
  - destruct (checked_reason _ _ _ Hc) as [C1 C2]. split.
    + intros e H1 H2. exists s. split; [exact Hv|]. apply renounce_first. by apply C1.
    + intros s' e Hs' Hf. assert (s' = s) as -> by congruence. left. apply C2. by apply renounce_first.
Qed.
Theorem C61_withdraw : forall E sg a amount w, env_ok E -> reachable E w ->
  (forall e, lockup_exec E sg (LWithdraw a amount) w = Err e -> custom e = true ->
    exists s, stream_view E (wa_stream a) (wa_nft_mint a) w = Ok s /\ first_broken (withdraw_requirements s amount (get_current_time w)) e) /\
  (forall s e, stream_view E (wa_stream a) (wa_nft_mint a) w = Ok s -> first_broken (withdraw_requirements s amount (get_current_time w)) e ->
    lockup_exec E sg (LWithdraw a amount) w = Err e \/ elsewhere (lockup_exec E sg (LWithdraw a amount) w)).
Proof.
  intros E sg a am w HE Hr. pose proof (reachable_inv _ _ HE Hr) as Hi. destruct (withdraw_phase E sg a am w Hi) as [He|(s & rest & Hv & Hc)].
  - split; [intros e H1 H2; destruct (not_elsewhere _ _ H1 H2 He)|intros; by right].
  - destruct (checked_reason _ _ _ Hc) as [C1 C2]. split.
    + intros e H1 H2. exists s. split; [exact Hv|]. apply withdraw_first. by apply C1.
    + intros s' e Hs' Hf. assert (s' = s) as -> by congruence. left. apply C2. by apply withdraw_first.
Qed.
Lemma withdraw_max_first s now e :
  first_broken (withdraw_requirements s (entitled s now - withdrawn (s_amounts s)) now) e <-> first_broken (withdraw_max_requirements s now) e.
Proof.
  unfold withdraw_requirements, withdraw_max_requirements. split; intros Hf; fb_done; try lia;
    (apply fb_here; done) || (apply fb_next; [done|apply fb_here; done]).
Qed.
Theorem C61_withdraw_max : forall E sg a w, env_ok E -> reachable E w ->
  (forall e, lockup_exec E sg (LWithdrawMax a) w = Err e -> custom e = true ->
    exists s, stream_view E (wa_stream a) (wa_nft_mint a) w = Ok s /\ first_broken (withdraw_max_requirements s (get_current_time w)) e) /\
  (forall s e, stream_view E (wa_stream a) (wa_nft_mint a) w = Ok s -> first_broken (withdraw_max_requirements s (get_current_time w)) e ->
    lockup_exec E sg (LWithdrawMax a) w = Err e \/ elsewhere (lockup_exec E sg (LWithdrawMax a) w)).
Proof.
  intros E sg a w HE Hr. pose proof (reachable_inv _ _ HE Hr) as Hi. destruct (withdraw_max_phase E sg a w Hi) as [He|(s & rest & Hv & Hc)].
  - split; [intros e H1 H2; destruct (not_elsewhere _ _ H1 H2 He)|intros; by right].
  - destruct (checked_reason _ _ _ Hc) as [C1 C2]. split.
    + intros e H1 H2. exists s. split; [exact Hv|]. apply withdraw_max_first. apply withdraw_first. by apply C1.
    + intros s' e Hs' Hf. assert (s' = s) as -> by congruence. left. apply C2. apply withdraw_first. by apply withdraw_max_first.
Qed.
Theorem C61_claim : forall E sg a i amount proof w, env_ok E -> reachable E w -> hash_ok (keccak E) ->
  (forall e, merkle_exec E sg (MClaim a i amount proof) w = Err e -> custom e = true ->
    exists c, campaign_view (la_campaign a) w = Ok c /\
      first_broken (claim_requirements (keccak E) c (Entry i (la_recipient a) amount) proof (get_current_time w)) e) /\
  (forall c e, campaign_view (la_campaign a) w = Ok c ->
    first_broken (claim_requirements (keccak E) c (Entry i (la_recipient a) amount) proof (get_current_time w)) e ->
    merkle_exec E sg (MClaim a i amount proof) w = Err e \/ elsewhere (merkle_exec E sg (MClaim a i amount proof) w)).
Proof.
  intros E sg a i am pf w HE Hr HH. pose proof (reachable_inv _ _ HE Hr) as Hi. destruct (claim_phase E sg a i am pf w) as [He|(c & rest & Hv & Hpf & Hc)].
  - split; [intros e H1 H2; destruct (not_elsewhere _ _ H1 H2 He)|intros; by right].
  - destruct (checked_reason _ _ _ Hc) as [C1 C2]. apply is_hash_proof in Hpf.
    assert (0 <= c_expiration c) as Hex.
    { apply load_campaign_ok in Hv. apply (ci_ok _ _ _ _ (mi_campaign _ _ (inv_merkle _ _ Hi) _ _ Hv)). }
    split.
    + intros e H1 H2. exists c. split; [exact Hv|]. apply claim_first; [done..|]. by apply C1.
    + intros c' e Hc' Hf. assert (c' = c) as -> by congruence. left. apply C2. by apply claim_first.
Qed.
Lemma clawback_refused c now : 0 <= c_expiration c -> 0 <= c_first_claim c -> ~ clawback_allowed c now ->
  check_clawback now (c_expiration c) (c_first_claim c) = Err (EMerkle ClawbackNotAllowed) \/
  exists e, check_clawback now (c_expiration c) (c_first_claim c) = Err e /\ custom e = false.
Proof.
  intros He Hf Hna. destruct (check_clawback _ _ _) as [[]|e] eqn:Hk; [destruct (Hna (check_clawback_iff _ _ He Hf Hk))|].
  destruct (custom e) eqn:Hce; [|right; by exists e]. left. pose proof (clawback_first _ _ _ He Hf Hce Hk) as Hb. unfold clawback_requirements in Hb. fb_done. done.
Qed.
Theorem C61_clawback : forall E sg a amount w, env_ok E -> reachable E w ->
  (forall e, merkle_exec E sg (MClawback a amount) w = Err e -> custom e = true ->
    exists c, campaign_view (ba_campaign a) w = Ok c /\ first_broken (clawback_requirements c (get_current_time w)) e) /\
  (forall c e, campaign_view (ba_campaign a) w = Ok c -> first_broken (clawback_requirements c (get_current_time w)) e ->
    merkle_exec E sg (MClawback a amount) w = Err e \/ elsewhere (merkle_exec E sg (MClawback a amount) w)).
Proof.
  intros E sg a am w HE Hr. pose proof (reachable_inv _ _ HE Hr) as Hi. destruct (clawback_phase E sg a am w) as [He|(c & rest & Hv & Hc)].
  - split; [intros e H1 H2; destruct (not_elsewhere _ _ H1 H2 He)|intros; by right].
  - destruct (checked_reason _ _ _ Hc) as [C1 C2].
    assert (campaign_ok c) as Hok.
    { apply load_campaign_ok in Hv. apply (ci_ok _ _ _ _ (mi_campaign _ _ (inv_merkle _ _ Hi) _ _ Hv)). }
    split.
    + intros e H1 H2. exists c. split; [exact Hv|]. apply clawback_first; [apply Hok|apply Hok|done|]. by apply C1.
    + intros c' e Hc' Hf. assert (c' = c) as -> by congruence. unfold clawback_requirements in Hf. fb_done.
      destruct (clawback_refused c (get_current_time w)) as [Hk|(e & Hk & Hke)]; [apply Hok|apply Hok|done| |].
      * left. by apply C2.
      * right. exists e. split; [by apply C2|done].
Qed.

(** ** The codes an instruction can report at all *)
Definition create_errors : list lockup_error :=
  [DepositAmountZero; StartTimeZero; StartTimeNotLessThanEndTime; StartTimeNotLessThanCliffTime; CliffTimeNotLessThanEndTime;
   CliffTimeZeroUnlockAmountNotZero; UnlockAmountsSumTooHigh].
Definition lockup_errors (ix : lockup_ix) : list lockup_error :=
  match ix with
  | LInitialize _ _ _ _ => []
  | LCreateTs _ _ | LCreateDur _ _ => create_errors
  | LRenounce _ => [StreamAlreadyNonCancelable]
  | LCancel _ => [StreamDepleted; StreamCanceled; StreamIsNotCancelable; StreamSettled]
  | LWithdraw _ _ => [StreamDepleted; WithdrawAmountZero; Overdraw]
  | LWithdrawMax _ => [StreamDepleted; WithdrawAmountZero]
  | LCollectFees _ => [CantCollectZeroFees]
  end.
Definition merkle_errors (ix : merkle_ix) : list merkle_error :=
  match ix with
  | MInitialize _ _ _ _ _ | MCreateCampaign _ _ => []
  | MClaim _ _ _ _ => [CampaignNotStarted; CampaignExpired; InvalidMerkleProof]
  | MClawback _ _ => [ClawbackNotAllowed]
  | MCollectFees _ => [MCantCollectZeroFees]
  end.
(** [r] fails only plainly or with an error from [l]. *)
Definition errs_in {A} (l : list error) (r : res A) : Prop := forall e, r = Err e -> custom e = true -> In e l.
Lemma errs_bind {A B} l (r : res A) (f : A -> res B) : errs_in l r -> (forall a, errs_in l (f a)) -> errs_in l (rbind r f).
Proof. intros Hr Hf. destruct r as [a|e]; cbn [rbind]; [apply Hf|]. intros e' [= ->]. by apply Hr. Qed.
Lemma errs_plain {A} l (r : res A) : nocustom r -> errs_in l r.
Proof. intros Hp e He Hc. rewrite (Hp e He) in Hc. discriminate. Qed.

Ltac errs := repeat (first [ apply errs_plain; solve [nocustom] | apply errs_bind; [|intros ?] ]).
Ltac find_err := intros ? [= <-] _; cbn [In map]; tauto.
Ltac err_cases := repeat match goal with |- errs_in _ (rbind _ _) => apply errs_bind; [|intros ?] | |- errs_in _ (if ?b then _ else _) => destruct b
  | |- errs_in _ (let _ := _ in _) => cbv zeta end; try (intros ? [=]; fail); try find_err.
Lemma errs_check_create dep st cl en su cu : errs_in (map ELockup create_errors) (check_create dep st cl en su cu).
Proof. unfold check_create, create_errors. err_cases. Qed.
Lemma nocustom_create_accounts E sg a salt w : nocustom (create_accounts E sg a salt w).
Proof. unfold create_accounts. nocustom. Qed.
Lemma errs_create_handler E sg a p sb mb nc dm w : errs_in (map ELockup create_errors) (create_handler E sg a p sb mb nc dm w).
Proof. unfold create_handler. apply errs_bind; [apply errs_check_create|]. intros _. cbv zeta. errs. Qed.
Theorem C61_lockup_errors : forall E sg ix w e, env_ok E -> reachable E w -> lockup_exec E sg ix w = Err e -> custom e = true ->
  exists le, e = ELockup le /\ In le (lockup_errors ix).
Proof.
  intros E sg ix w e HE Hr Hx Hc.
  assert (In e (map ELockup (lockup_errors ix))) as Hin.
  2:{ apply in_map_iff in Hin as (le & <- & Hin). by exists le. }
  destruct ix as [a f p c|a p|a q|a|a|a amount|a|a].
  - revert Hx Hc. refine (errs_plain _ _ _ e). unfold lockup_exec, initialize. nocustom.
  - revert e Hx Hc. change (errs_in (map ELockup create_errors) (lockup_exec E sg (LCreateTs a p) w)). unfold lockup_exec. apply errs_bind; [errs|intros _].
    unfold create_with_timestamps. apply errs_bind; [apply errs_plain, nocustom_create_accounts|]. intros [[[[? ?] ?] ?] ?]. apply errs_create_handler.
  - revert e Hx Hc. change (errs_in (map ELockup create_errors) (lockup_exec E sg (LCreateDur a q) w)). unfold lockup_exec. apply errs_bind; [errs|intros _].
    unfold create_with_durations. apply errs_bind; [apply errs_plain, nocustom_create_accounts|]. intros [[[[? ?] ?] ?] ?]. cbv zeta.
    apply errs_bind; [errs|intros ?]. apply errs_bind; [errs|intros ?]. apply errs_create_handler.
  - destruct (C61_renounce E sg a w HE Hr) as [H _]. destruct (H e Hx Hc) as (s & _ & Hf). unfold renounce_requirements in Hf. fb_done. by left.
  - destruct (C61_cancel E sg a w HE Hr) as [H _]. destruct (H e Hx Hc) as (s & _ & Hf). unfold cancel_requirements in Hf. fb_done; cbn [In map lockup_errors]; tauto.
  - destruct (C61_withdraw E sg a amount w HE Hr) as [H _]. destruct (H e Hx Hc) as (s & _ & Hf). unfold withdraw_requirements in Hf. fb_done; cbn [In map lockup_errors]; tauto.
  - destruct (C61_withdraw_max E sg a w HE Hr) as [H _]. destruct (H e Hx Hc) as (s & _ & Hf). unfold withdraw_max_requirements in Hf. fb_done; cbn [In map lockup_errors]; tauto.
  - revert e Hx Hc. change (errs_in [ELockup CantCollectZeroFees] (lockup_exec E sg (LCollectFees a) w)). unfold lockup_exec, lockup_collect_fees, check_collect_fees. errs. err_cases.
Qed.
Theorem C61_merkle_errors : forall E sg ix w e, env_ok E -> reachable E w -> hash_ok (keccak E) -> merkle_exec E sg ix w = Err e -> custom e = true ->
  exists me, e = EMerkle me /\ In me (merkle_errors ix).
Proof.
  intros E sg ix w e HE Hr HH Hx Hc.
  assert (In e (map EMerkle (merkle_errors ix))) as Hin.
  2:{ apply in_map_iff in Hin as (le & <- & Hin). by exists le. }
  destruct ix as [i t f p c|a g|a i amount pf|a amount|a].
  - revert Hx Hc. refine (errs_plain _ _ _ e). unfold merkle_exec, m_initialize. nocustom.
  - revert Hx Hc. refine (errs_plain _ _ _ e). unfold merkle_exec, create_campaign. nocustom.
  - destruct (C61_claim E sg a i amount pf w HE Hr HH) as [H _]. destruct (H e Hx Hc) as (s & _ & Hf). unfold claim_requirements in Hf. fb_done; cbn [In map merkle_errors]; tauto.
  - destruct (C61_clawback E sg a amount w HE Hr) as [H _]. destruct (H e Hx Hc) as (s & _ & Hf). unfold clawback_requirements in Hf. fb_done. by left.
  - revert e Hx Hc. change (errs_in [EMerkle MCantCollectZeroFees] (merkle_exec E sg (MCollectFees a) w)). unfold merkle_exec, merkle_collect_fees, m_check_collect_fees. errs. err_cases.
Qed.

(** ** Examples: in reachable states the instructions do report these codes, and the first broken requirement decides *)
Definition errc (r : res (world * list event)) : option error := match r with Ok _ => None | Err e => Some e end.
Example C61_lockup_example :
  (* stream 1 at 1600: not settled; from 2000 on settled; canceled at 1600; depleted at 1700 *)
  reachable E0 (T 1600 w2) /\ errc (lockup_exec E0 [kSender] (LCancel (cancel_of 1)) (T 1600 w2)) = None /\
  errc (lockup_exec E0 [kSender] (LCancel (cancel_of 1)) (T 2000 w2)) = Some (ELockup StreamSettled) /\
  errc (lockup_exec E0 [kSender] (LCancel (cancel_of 1)) w3) = Some (ELockup StreamCanceled) /\
  errc (lockup_exec E0 [kSender] (LCancel (cancel_of 1)) w4) = Some (ELockup StreamDepleted) /\
  errc (lockup_exec E0 [kSender] (LCancel (cancel_of 2)) w3) = Some (ELockup StreamIsNotCancelable) /\
  errc (lockup_exec E0 [kSender] (LRenounce (renounce_of 2)) w3) = Some (ELockup StreamAlreadyNonCancelable) /\
  errc (lockup_exec E0 [kRecipient] (LWithdraw (withdraw_to 1 kRecipient) 0) w3) = Some (ELockup WithdrawAmountZero) /\
  errc (lockup_exec E0 [kRecipient] (LWithdraw (withdraw_to 1 kRecipient) 426) w3) = Some (ELockup Overdraw) /\
  errc (lockup_exec E0 [kRecipient] (LWithdraw (withdraw_to 1 kRecipient) 425) w3) = None /\
  errc (lockup_exec E0 [kRecipient] (LWithdraw (withdraw_to 1 kRecipient) 0) w4) = Some (ELockup StreamDepleted).
Proof.
  split; [apply fwd_reachable, (T_fwd 1600 tr2); [apply w2_hist|vm_compute; reflexivity..]|].
  repeat (split; [vm_compute; reflexivity|]). vm_compute. reflexivity.
Qed.
Example C61_merkle_example :
  reachable E0 (T 3000 w5) /\
  errc (merkle_exec E0 [kOther] (MClaim (claim_by kOther 1500 0 0 kRecipient) 0 500 [leafB; leafC]) (T 1499 w5)) = Some (EMerkle CampaignNotStarted) /\
  errc (merkle_exec E0 [kOther] (MClaim (claim_by kOther 1500 3000 0 kRecipient) 0 501 [leafB; leafC]) (T 3000 w5)) = Some (EMerkle CampaignExpired) /\
  errc (merkle_exec E0 [kOther] (MClaim (claim_by kOther 1500 0 0 kRecipient) 0 501 [leafB; leafC]) (T 1500 w5)) = Some (EMerkle InvalidMerkleProof) /\
  errc (merkle_exec E0 [kSender] (MClawback (clawback_to 1500 0 kSender) 100) (T 1000000 w6)) = Some (EMerkle ClawbackNotAllowed).
Proof.
  split; [apply fwd_reachable, (T_fwd 3000 tr5); [apply w5_hist|vm_compute; reflexivity..]|].
  repeat (split; [vm_compute; reflexivity|]). vm_compute. reflexivity.
Qed.

Print Assumptions C61_codes_distinct.
Print Assumptions C61_cancel.
Print Assumptions C61_renounce.
Print Assumptions C61_withdraw.
Print Assumptions C61_withdraw_max.
Print Assumptions C61_claim.
Print Assumptions C61_clawback.
Print Assumptions C61_lockup_errors.
Print Assumptions C61_merkle_errors.
