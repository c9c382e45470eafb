(** C71: the runtime's rent check at the end of a transaction can only be tripped by the payer's own account, or by the account
    fees are collected to. *)
From Verif Require Export PropLamports.

(** The one account of an instruction whose remaining lamports are somebody's choice. *)
Definition exposed (i : any_ix) : key :=
  match i with IL (LCollectFees a) | IM (MCollectFees a) => fa_recipient a | _ => payer_of i end.
(** How an account [k] can come out of an instruction. In each case an account that passed the check before passes it after. *)
Inductive rent_safe (E : env) (i : any_ix) (w w' : world) (k : key) : Prop :=
| rs_same : lam w' k = lam w k -> rent_safe E i w w' k                                         (* nothing moved *)
| rs_grown : wdat w !! k <> None -> lam w k <= lam w' k -> rent_safe E i w w' k                (* an existing account received *)
| rs_created s : (k, s) ∈ creates E i -> wdat w !! k = None -> rent_min E s <= lam w' k -> rent_safe E i w w' k  (* created with its rent *)
| rs_treasury : (exists a, i = IL (LCollectFees a) /\ fa_treasury a = k \/ i = IM (MCollectFees a) /\ fa_treasury a = k) ->
    rent_min E 105 + 1000000 = lam w' k -> rent_safe E i w w' k.                               (* a treasury that was emptied keeps its rent *)

Lemma net_rents_nonneg E w payer l k : env_ok E -> k <> payer -> 0 <= net (rents E w payer l) k.
Proof.
  intros HE Hp. induction l as [|[j s] l IH]; [done|].
  change (net (rents E w payer ((j, s) :: l)) k) with
    ((if k =? j then rent_due E w j s else 0) - (if k =? payer then rent_due E w j s else 0) + net (rents E w payer l) k).
  rewrite (proj2 (Z.eqb_neq k payer)) by done. assert (0 <= rent_due E w j s).
  { unfold rent_due. pose proof (eo_rent _ HE s). destruct (wdat w !! j); [lia|]. destruct (lam w j =? 0); lia. }
  destruct (k =? j); lia.
Qed.

Lemma net_levies_nonneg E payer l k : env_ok E -> k <> payer -> 0 <= net (levies E payer l) k.
Proof.
  intros HE Hp. induction l as [|[j s] l IH]; [done|].
  change (net (levies E payer ((j, s) :: l)) k) with
    ((if k =? j then rent_min E s + md_fee E else 0) - (if k =? payer then rent_min E s + md_fee E else 0) + net (levies E payer l) k).
  rewrite (proj2 (Z.eqb_neq k payer)) by done. pose proof (eo_rent _ HE s). pose proof (eo_md_fee _ HE). destruct (k =? j); lia.
Qed.

Theorem C71_rent_states : forall E sg i w w' evs k, env_ok E -> exec E sg i w = Ok (w', evs) -> 0 <= lam w k -> k <> exposed i -> rent_safe E i w w' k.
Proof.
  intros E sg i w w' evs k HE Hx Hnn Hk. destruct (exec_bill _ _ _ _ _ _ HE Hx) as (fee & Hq & Hf0 & Hl & Hfd & _). specialize (Hl k).
  unfold bill in Hl. rewrite !net_app in Hl.
  assert (is_collect i = true \/ (PropCosts.collected E w i = [] /\ exposed i = payer_of i)) as [Hc|[Hc Hp]]
    by (destruct i as [[]|[]]; first [by left|by right]).
  - assert (exists a, (i = IL (LCollectFees a) \/ i = IM (MCollectFees a)) /\ exposed i = fa_recipient a /\ fee_paid i fee = [] /\ opens E i = [] /\ metadata_made i = [] /\
      PropCosts.collected E w i = [(fa_treasury a, fa_recipient a, lam w (fa_treasury a) - rent_min E 105 - 1000000)]) as (a & Hi & He & H1 & H2 & H2' & H3).
    { destruct i as [[]|[]]; try discriminate; eexists; (split; [first [left; reflexivity|right; reflexivity]|done]). }
    rewrite H1, H2, H2', H3 in Hl. cbn in Hl. rewrite He in Hk. rewrite (proj2 (Z.eqb_neq _ _) Hk) in Hl.
    destruct (Z.eqb_spec k (fa_treasury a)) as [Ht|Ht].
    + apply rs_treasury; [|rewrite Hl, Ht; lia]. exists a. destruct Hi as [->| ->]; [left|right]; done.
    + apply rs_same. lia.
  - rewrite Hp in Hk. rewrite Hc in Hl. change (net [] k) with 0 in Hl.
    assert (0 <= net (fee_paid i fee) k /\ (net (fee_paid i fee) k <> 0 -> wdat w !! k <> None)) as [Hfp Hft].
    { assert (forall t, k <> payer_of i -> fee_paid i fee = [(payer_of i, t, fee)] -> wdat w !! t <> None ->
        0 <= net (fee_paid i fee) k /\ (net (fee_paid i fee) k <> 0 -> wdat w !! k <> None)) as Hone.
      { intros t Hkp -> Ht. cbn. rewrite (proj2 (Z.eqb_neq _ _) Hkp). destruct (Z.eqb_spec k t) as [->|]; split; try lia. intros _. exact Ht. }
      destruct i as [[]|[]]; try (cbn; split; [lia|intros H; exfalso; lia]); refine (Hone _ Hk eq_refl _); cbn [fee_quote] in Hq;
        first [unfold withdrawal_fee_in_lamports, load_lockup_treasury in Hq; intros Hn; rewrite Hn in Hq; discriminate
              |apply claim_fee_view_inv in Hq as (tr & Htr & _); apply merkle_treasury_view_inv in Htr as [Htr _]; congruence]. }
    pose proof (net_rents_nonneg E w _ (opens E i) k HE Hk) as Hrn. pose proof (net_levies_nonneg E _ (metadata_made i) k HE Hk) as Hmn.
    destruct (wdat w !! k) as [d|] eqn:Hd; [apply rs_grown; [congruence|lia]|].
    assert (net (fee_paid i fee) k = 0) as Hz by (destruct (decide (net (fee_paid i fee) k = 0)) as [|Hne]; [done|]; by destruct (Hft Hne)).
    destruct (decide (k ∈ (creates E i).*1)) as [Hin|Hnin].
    + apply elem_of_list_fmap in Hin as ([k' s] & -> & Hin). cbn in *. destruct (funded_all _ _ _ _ _ _ Hfd Hin Hd Hnn) as [_ Hr].
      exact (rs_created E i w w' k' s Hin Hd Hr).
    + apply rs_same. rewrite net_rents_other, net_levies_other in Hl; [lia|exact Hk| |exact Hk|];
        intros s Hin; apply Hnin, elem_of_list_fmap; exists (k, s); (split; [done|]); apply elem_of_app; [by right|by left].
Qed.

(** A withdrawal of [w1] at 1400: the destination's token account is created with its rent, the rest keeps its lamports. *)
Example C71_example : match exec E0 [kRecipient] (IL (LWithdraw (withdraw_to 1 kOther) 150)) (T 1400 w1) with
  | Ok (w', _) => wdat (T 1400 w1) !! ata kOther kToken SplToken = None /\ rent_min E0 165 = lam w' (ata kOther kToken SplToken) /\
      0 < rent_min E0 165
  | Err _ => False end.
Proof. vm_compute. split; [reflexivity|]. split; reflexivity. Qed.

Print Assumptions C71_rent_states.
