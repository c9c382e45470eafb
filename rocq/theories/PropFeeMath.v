(** C29, C30: conversion of the USD fee to lamports. *)
From Verif Require Export PropHistory.

(** ** C29 *)

(** A round the code accepts: a positive answer, not from the future, at most 24 hours old. [now]: the clock. *)
Definition usable (r : round) (now : Z) : Prop :=
  0 < r_answer r /\ r_timestamp r <= now <= r_timestamp r + 86400.

Global Instance usable_dec r now : Decision (usable r now).
Proof. unfold usable. apply _. Defined.

(** [x] lamports are the value of the fee, rounded down. With the price p / 10^d dollars per SOL and 10^9 lamports per
    SOL, [x] lamports are worth x * p / (10^9 * 10^d) dollars; the fee is fee_usd / 10^8 dollars. *)
Definition fee_value (fee_usd price decimals x : Z) : Prop :=
  x * price * 10 ^ 8 <= fee_usd * 10 ^ 9 * 10 ^ decimals < (x + 1) * price * 10 ^ 8.

(** What the 64-bit (8 decimals) or 128-bit arithmetic can hold. *)
Definition fee_fits (fee_usd price decimals : Z) : Prop :=
  (decimals = 8 /\ fee_usd * 10 ^ 9 <= U64_MAX) \/
  (decimals <> 8 /\ fee_usd * 10 ^ (decimals + 1) <= U128_MAX /\ fee_usd * 10 ^ (decimals + 1) / price <= U64_MAX).

Lemma fee_value_iff fee price d x : 0 < price -> 0 <= d ->
  fee_value fee price d x <-> x = fee * 10 ^ (d + 1) / price.
Proof.
  intros Hp Hd. unfold fee_value. rewrite Z.pow_add_r by lia. change (10 ^ 9) with (10 * 10 ^ 8). change (10 ^ 1) with 10.
  set (t := 10 ^ d). set (n := fee * (t * 10)). set (c := 10 ^ 8). assert (0 < c) as Hc by done.
  replace (fee * (10 * c) * t) with (n * c) by (unfold n; ring). split.
  - intros [H1 H2]. assert (x * price <= n) by (apply (Z.mul_le_mono_pos_r _ _ c Hc); exact H1).
    assert (n < (x + 1) * price) by (apply (Z.mul_lt_mono_pos_r c _ _ Hc); exact H2).
    apply Z.div_unique with (n - x * price); [left; lia|ring].
  - intros ->. pose proof (Z.mul_div_le n price Hp). pose proof (Z.mul_succ_div_gt n price Hp).
    split; [apply (Z.mul_le_mono_pos_r _ _ c Hc); lia|apply (Z.mul_lt_mono_pos_r c _ _ Hc); lia].
Qed.

Lemma as_u32_small x : 0 <= x < 4294967296 -> as_u32 x = x.
Proof. intros. unfold as_u32. by rewrite Z.mod_small. Qed.
Lemma as_u64_small x : 0 <= x <= U64_MAX -> as_u64 x = x.
Proof. intros. unfold as_u64. rewrite Z.mod_small; [done|]. unfold U64_MAX in *. lia. Qed.

Lemma convert_usable fee r d now : 0 < fee -> usable r now -> 0 <= now < 4294967296 ->
  convert_fee fee (Answers r) (Answers d) now = fee_from_price fee (as_u64 (r_answer r)) d.
Proof.
  intros Hf (Hp & Hn1 & Hn2) Hn. unfold convert_fee. rewrite (proj2 (Z.eqb_neq fee 0)) by lia.
  rewrite (proj2 (Z.leb_gt (r_answer r) 0)) by lia. cbv zeta. rewrite as_u32_small by done.
  rewrite (proj2 (Z.ltb_ge now (r_timestamp r))) by lia. unfold SECONDS_IN_24_HOURS. rewrite (proj2 (Z.ltb_ge 86400 (now - r_timestamp r))) by lia. done.
Qed.

(** The clock below 2^32 (until the year 2106), as the code compares 32-bit times. *)
Theorem C29_fee : forall fee_usd r d now, 0 < fee_usd -> usable r now -> r_answer r < 2 ^ 64 -> 0 <= d -> 0 <= now < 2 ^ 32 ->
  fee_fits fee_usd (r_answer r) d ->
  exists x, convert_fee fee_usd (Answers r) (Answers d) now = Ok x /\ fee_value fee_usd (r_answer r) d x.
Proof.
  intros fee r d now Hf Hu Hp Hd Hn Hfit. pose proof Hu as (Hp0 & _). rewrite convert_usable by done.
  rewrite as_u64_small by (unfold U64_MAX; lia).
  exists (fee * 10 ^ (d + 1) / r_answer r). split; [|by apply fee_value_iff].
  unfold fee_from_price. destruct Hfit as [[-> Hfit]|(Hne & Hfit & Hle)].
  - rewrite Z.eqb_refl. unfold u64_mul, LAMPORTS_PER_SOL. change (10 ^ (8 + 1)) with 1000000000. change (10 ^ 9) with 1000000000 in Hfit.
    rewrite (proj2 (Z.leb_le _ _)) by done. cbn [rbind]. unfold u64_div. by rewrite (proj2 (Z.eqb_neq _ _)) by lia.
  - rewrite (proj2 (Z.eqb_neq d 8)) by done. unfold u128_pow. replace (1 + d) with (d + 1) by lia.
    pose proof (Z.pow_nonneg 10 (d + 1)). set (t := 10 ^ (d + 1)) in *.
    rewrite (proj2 (Z.leb_le t U128_MAX)) by nia. cbn [rbind]. unfold u128_mul. rewrite (proj2 (Z.leb_le _ _)) by lia. cbn [rbind].
    unfold u128_div. rewrite (proj2 (Z.eqb_neq (r_answer r) 0)) by lia. cbn [rbind]. f_equal. apply as_u64_small.
    split; [apply Z.div_pos; nia|done].
Qed.

(** No fee for a zero setting, whatever the oracle does, and none whenever the oracle program replies without giving a
    usable round. *)
Theorem C29_zero : forall fee_usd rnd dec now, 0 <= now < 2 ^ 32 ->
  fee_usd = 0 \/ rnd = Undecodable \/ (exists r, rnd = Answers r /\ (dec = Undecodable \/ ~ usable r now)) ->
  convert_fee fee_usd rnd dec now = Ok 0.
Proof.
  intros fee rnd dec now Hn H. unfold convert_fee. destruct (Z.eqb_spec fee 0); [done|].
  destruct H as [?|[->|(r & -> & H)]]; [done|done|].
  destruct (Z.leb_spec (r_answer r) 0); [done|]. cbv zeta. rewrite as_u32_small by done.
  destruct (Z.ltb_spec now (r_timestamp r)); [done|]. unfold SECONDS_IN_24_HOURS. destruct (Z.ltb_spec 86400 (now - r_timestamp r)); [done|].
  destruct H as [->|Hu]; [done|]. exfalso. apply Hu. split; lia.
Qed.
(** One dollar at 200 dollars per SOL is 5 million lamports. *)
Example C29_example : convert_fee 100000000 (Answers (Round 20000000000 900)) (Answers 8) 1000 = Ok 5000000 /\
  fee_value 100000000 20000000000 8 5000000 /\ usable (Round 20000000000 900) 1000 /\ fee_fits 100000000 20000000000 8 /\
  convert_fee 100000000 (Answers (Round 200000 900)) (Answers 3) 1000 = Ok 5000000 /\ fee_fits 100000000 200000 3.
Proof.
  split; [vm_compute; reflexivity|]. split; [unfold fee_value; lia|]. split; [split; simpl; lia|]. split; [left; unfold U64_MAX; lia|].
  split; [vm_compute; reflexivity|]. right. split; [lia|]. split; [vm_compute; congruence|]. vm_compute. congruence.
Qed.

(** ** C30 *)

(** The settings of this commit: the fee is always 0, whatever the oracle says. *)
Theorem C30_deployed_never_aborts : forall E prog feed w, deployed_fees E ->
  convert_usd_fee_to_lamports (withdrawal_fee_usd E) prog feed w = Ok 0 /\
  convert_usd_fee_to_lamports (claim_fee_usd E) prog feed w = Ok 0.
Proof. intros E prog feed w [-> ->]. done. Qed.

(** In general the conversion aborts exactly in these cases: the oracle program fails where it is asked, or its answer
    cannot be computed with. *)
Definition aborting_round (fee_usd : Z) (r : round) (d : Z) : Prop :=
  r_answer r mod 2 ^ 64 = 0 \/
  (d = 8 /\ U64_MAX < fee_usd * 10 ^ 9) \/
  (d <> 8 /\ (U128_MAX < 10 ^ (d + 1) \/ U128_MAX < fee_usd * 10 ^ (d + 1))).
Theorem C30_aborts_iff : forall fee_usd rnd dec now, 0 <= fee_usd -> 0 <= now < 2 ^ 32 ->
  (forall d, dec = Answers d -> 0 <= d) ->
  ((exists e, convert_fee fee_usd rnd dec now = Err e) <->
   0 < fee_usd /\
   (rnd = Fails \/
    exists r, rnd = Answers r /\ usable r now /\ (dec = Fails \/ exists d, dec = Answers d /\ aborting_round fee_usd r d))).
Proof.
  intros fee rnd dec now Hf Hn Hdec.
  assert (fee = 0 \/ rnd = Undecodable \/ (exists r, rnd = Answers r /\ (dec = Undecodable \/ ~ usable r now)) ->
    ((exists e, convert_fee fee rnd dec now = Err e) <->
     0 < fee /\ (rnd = Fails \/
       exists r, rnd = Answers r /\ usable r now /\ (dec = Fails \/ exists d, dec = Answers d /\ aborting_round fee r d)))) as Hzero.
  { intros Hz. rewrite C29_zero by done. split; [intros [e ?]; done|]. intros (H1 & H2). exfalso.
    destruct Hz as [?|[->|(r & -> & Hz)]]; [lia|destruct H2 as [?|(? & ? & _)]; done|].
    destruct H2 as [?|(r' & [= <-] & Hu & H2)]; [done|]. destruct Hz as [->|Hz]; [|done]. destruct H2 as [?|(? & ? & _)]; done. }
  destruct (Z.eq_dec fee 0) as [->|Hf0]; [apply Hzero; by left|].
  destruct rnd as [r| |]; [|apply Hzero; right; by left|].
  2:{ unfold convert_fee. rewrite (proj2 (Z.eqb_neq fee 0)) by lia. split; [intros _; split; [lia|by left]|intros _; by eexists]. }
  destruct (decide (usable r now)) as [Hu|Hu]; [|apply Hzero; right; right; exists r; split; [done|by right]].
  destruct dec as [d| |]; [|apply Hzero; right; right; exists r; split; [done|by left]|].
  2:{ split; [|intros _].
      - intros _. split; [lia|]. right. exists r. split; [done|]. split; [done|by left].
      - exists ECpi. destruct Hu as (Hp & Hn1 & Hn2). unfold convert_fee. rewrite (proj2 (Z.eqb_neq fee 0)) by lia.
        rewrite (proj2 (Z.leb_gt (r_answer r) 0)) by lia. cbv zeta. rewrite as_u32_small by done.
        rewrite (proj2 (Z.ltb_ge now (r_timestamp r))) by lia. unfold SECONDS_IN_24_HOURS. rewrite (proj2 (Z.ltb_ge 86400 (now - r_timestamp r))) by lia. done. }
  clear Hzero.
  rewrite convert_usable by (done || lia). specialize (Hdec d eq_refl).
  transitivity (aborting_round fee r d).
  2:{ split.
      - intros Ha. split; [lia|]. right. exists r. split; [done|]. split; [done|]. right. by exists d.
      - intros (_ & [?|(r' & [= <-] & _ & [?|(d' & [= <-] & ?)])]); done. }
  unfold fee_from_price, aborting_round. change (r_answer r mod 2 ^ 64) with (as_u64 (r_answer r)).
  set (p := as_u64 (r_answer r)). destruct (Z.eqb_spec d 8) as [->|Hd].
  - unfold u64_mul, LAMPORTS_PER_SOL. change (10 ^ 9) with 1000000000. destruct (Z.leb_spec (fee * 1000000000) U64_MAX); cbn [rbind].
    + unfold u64_div. destruct (Z.eqb_spec p 0); [split; [by left|by eexists]|]. split; [intros [e ?]; done|]. lia.
    + split; [intros _; right; left; lia|by eexists].
  - unfold u128_pow. replace (1 + d) with (d + 1) by lia. set (t := 10 ^ (d + 1)).
    destruct (Z.leb_spec t U128_MAX); cbn [rbind]; [|split; [intros _; right; right; split; [done|by left]|by eexists]].
    unfold u128_mul. destruct (Z.leb_spec (fee * t) U128_MAX); cbn [rbind]; [|split; [intros _; right; right; split; [done|by right]|by eexists]].
    unfold u128_div. destruct (Z.eqb_spec p 0); cbn [rbind]; [split; [by left|by eexists]|]. split; [intros [e ?]; done|].
    intros [?|[[? _]|[_ [?|?]]]]; lia.
Qed.

(** So a safe range: an oracle program that does not fail, fees up to 184 dollars and prices below 2^64 with at most 27
    decimals. *)
Theorem C30_safe_range : forall fee_usd rnd dec now, 0 <= fee_usd <= 18446744073 -> 0 <= now < 2 ^ 32 ->
  rnd <> Fails -> dec <> Fails ->
  (forall r, rnd = Answers r -> r_answer r < 2 ^ 64) -> (forall d, dec = Answers d -> 0 <= d <= 27) ->
  exists x, convert_fee fee_usd rnd dec now = Ok x.
Proof.
  intros fee rnd dec now Hf Hn Hnr Hnd Hr Hd. destruct (convert_fee fee rnd dec now) as [x|e] eqn:Hc; [by exists x|]. exfalso.
  assert (exists e, convert_fee fee rnd dec now = Err e) as H by by exists e.
  apply C30_aborts_iff in H; [|lia|lia|intros d ->; specialize (Hd d eq_refl); lia].
  destruct H as (Hf0 & [?|(r & -> & (Hp & _) & [?|(d & -> & Hab)])]); [done| |]; [done|]. specialize (Hr r eq_refl). specialize (Hd d eq_refl).
  assert (10 ^ (d + 1) <= 10 ^ 28) as Hpow by (apply Z.pow_le_mono_r; lia).
  assert (0 <= 10 ^ (d + 1)) by (apply Z.pow_nonneg; lia).
  set (t := 10 ^ (d + 1)) in *. change (10 ^ 28) with 10000000000000000000000000000 in Hpow. unfold aborting_round in Hab. fold t in Hab.
  rewrite Z.mod_small in Hab by lia. change (10 ^ 9) with 1000000000 in Hab. unfold U64_MAX, U128_MAX in Hab. nia.
Qed.

(** The claim is false for other settings. An oracle program that fails stops the caller with any positive fee setting,
    although the code means to skip the fee in that case (fee_calculation.rs:25); *)
Theorem C30_failing_oracle_refuted : forall fee_usd dec now, 0 < fee_usd -> convert_fee fee_usd Fails dec now = Err ECpi.
Proof. intros fee dec now Hf. unfold convert_fee. by rewrite (proj2 (Z.eqb_neq fee 0)) by lia. Qed.
(** for every positive fee setting there is a fresh, positive oracle answer that
    aborts, *)
Theorem C30_zero_price_refuted : forall fee_usd now, 0 < fee_usd -> 0 <= now < 2 ^ 32 ->
  exists r, usable r now /\ convert_fee fee_usd (Answers r) (Answers 8) now = Err EPanic.
Proof.
  intros fee now Hf Hn. exists (Round (2 ^ 64) now). assert (usable (Round (2 ^ 64) now) now) as Hu by (split; simpl; lia).
  split; [done|]. rewrite convert_usable by done. cbn [r_answer]. change (as_u64 (2 ^ 64)) with 0. unfold fee_from_price. cbn [Z.eqb Pos.eqb].
  unfold u64_mul. destruct (_ <=? _); done.
Qed.
(** and one with an ordinary price from a feed with too many decimals; *)
Theorem C30_decimals_refuted : forall fee_usd r d now, 0 < fee_usd -> 0 <= now < 2 ^ 32 -> usable r now -> 38 <= d ->
  convert_fee fee_usd (Answers r) (Answers d) now = Err EPanic.
Proof.
  intros fee r d now Hf Hn Hu Hd. rewrite convert_usable by done. unfold fee_from_price. rewrite (proj2 (Z.eqb_neq d 8)) by lia.
  unfold u128_pow. assert (10 ^ 39 <= 10 ^ (1 + d)) by (apply Z.pow_le_mono_r; lia). rewrite (proj2 (Z.leb_gt _ _)); [done|].
  eapply Z.lt_le_trans; [|eassumption]. vm_compute. reflexivity.
Qed.
(** fees above 184 dollars abort with every ordinary price of 8 decimals; *)
Theorem C30_large_fee_refuted : forall fee_usd r now, 18446744073 < fee_usd -> 0 <= now < 2 ^ 32 -> usable r now ->
  convert_fee fee_usd (Answers r) (Answers 8) now = Err EPanic.
Proof.
  intros fee r now Hf Hn Hu. rewrite convert_usable by (done || lia). unfold fee_from_price. cbn [Z.eqb Pos.eqb].
  unfold u64_mul, LAMPORTS_PER_SOL. rewrite (proj2 (Z.leb_gt _ _)); [done|]. unfold U64_MAX. lia.
Qed.
(** and a price of 2^64 + 1 is read as 1. *)
Theorem C30_wrapped_price_refuted : exists r now x, usable r now /\ convert_fee 100000000 (Answers r) (Answers 8) now = Ok x /\
  ~ fee_value 100000000 (r_answer r) 8 x.
Proof.
  exists (Round (2 ^ 64 + 1) 1000), 1000, 100000000000000000. split; [split; simpl; lia|]. split; [vm_compute; reflexivity|].
  unfold fee_value. cbn [r_answer]. lia.
Qed.
Example C30_example : aborting_round 1 (Round (2 ^ 64) 900) 8 /\ ~ aborting_round 100000000 (Round 20000000000 900) 8.
Proof. split; [left; vm_compute; reflexivity|]. unfold aborting_round. cbn [r_answer]. rewrite Z.mod_small by lia. unfold U64_MAX. lia. Qed.

Print Assumptions C29_fee.
Print Assumptions C29_zero.
Print Assumptions C30_aborts_iff.
Print Assumptions C30_safe_range.
