(** C63: an instruction sees only the accounts it is given, and instructions that do not write each other's
    accounts can be executed in either order. *)
From Verif Require Export PropWritable.
From Verif Require Import Lockup.

(** ** The accounts an instruction is given: every account field of its accounts struct. *)
Definition create_reads (a : create_accs) : list key :=
  [ca_creator a; ca_creator_ata a; ca_recipient a; ca_sender a; ca_nft_collection_data a; ca_coll_edition a;
   ca_coll_metadata a; ca_coll_mint a; ca_deposit_mint a; ca_nft_mint a; ca_recipient_nft_ata a; ca_stream a;
   ca_vault a; ca_edition a; ca_metadata a].
Definition withdraw_reads (a : withdraw_accs) : list key :=
  [wa_signer a; wa_stream_recipient a; wa_withdrawal_recipient a; wa_dest a; wa_treasury a; wa_mint a; wa_nft_ata a;
   wa_stream a; wa_vault a; wa_nft_mint a; wa_chainlink a; wa_feed a].
Definition lockup_accounts (ix : lockup_ix) : list key :=
  match ix with
  | LInitialize a _ _ _ =>
      [ia_initializer a; ia_treasury a; ia_nft_collection_data a; ia_edition a; ia_metadata a; ia_mint a; ia_ata a]
  | LCreateTs a _ | LCreateDur a _ => create_reads a
  | LRenounce a => [ra_sender a; ra_stream a; ra_nft_mint a]
  | LCancel a => [xa_sender a; xa_sender_ata a; xa_mint a; xa_stream a; xa_vault a; xa_nft_mint a]
  | LWithdraw a _ | LWithdrawMax a => withdraw_reads a
  | LCollectFees a => [fa_collector a; fa_recipient a; fa_treasury a]
  end.
Definition merkle_accounts (ix : merkle_ix) : list key :=
  match ix with
  | MInitialize i t _ _ _ => [i; t]
  | MCreateCampaign a _ => [na_creator a; na_mint a; na_campaign a; na_vault a]
  | MClaim a _ _ _ =>
      [la_claimer a; la_recipient a; la_recipient_ata a; la_treasury a; la_mint a; la_campaign a; la_vault a;
       la_receipt a; la_chainlink a; la_feed a]
  | MClawback a _ => [ba_creator a; ba_recipient a; ba_recipient_ata a; ba_mint a; ba_campaign a; ba_vault a]
  | MCollectFees a => [fa_collector a; fa_recipient a; fa_treasury a]
  end.

(** Two worlds look the same through the accounts [L]: same clock, data and lamports. *)
Record agree (L : list key) (w1 w2 : world) : Prop := {
  ag_clock : wclock w1 = wclock w2;
  ag_dat : forall k, k ∈ L -> wdat w1 !! k = wdat w2 !! k;
  ag_lam : forall k, k ∈ L -> lam w1 k = lam w2 k }.

(** Two outcomes look the same through the accounts [L]: the same error, or the same events and the same accounts. *)
Definition same_outcome (L : list key) (r1 r2 : res (world * list event)) : Prop :=
  match r1, r2 with
  | Ok (w1, ev1), Ok (w2, ev2) => ev1 = ev2 /\ agree L w1 w2
  | Err e1, Err e2 => e1 = e2
  | _, _ => False
  end.

(** ** Relational reasoning about outcomes *)
Definition sim {A B} (R : A -> B -> Prop) (x : res A) (y : res B) : Prop :=
  match x, y with Ok a, Ok b => R a b | Err e, Err e' => e = e' | _, _ => False end.
Lemma sim_bind {A B A' B'} (R : A -> B -> Prop) (S : A' -> B' -> Prop) x y f g :
  sim R x y -> (forall a b, R a b -> sim S (f a) (g b)) -> sim S (rbind x f) (rbind y g).
Proof. destruct x, y; simpl; intros H Hf; try done. by apply Hf. Qed.
Lemma sim_same {A A' B'} (S : A' -> B' -> Prop) (x : res A) f g :
  (forall a, sim S (f a) (g a)) -> sim S (rbind x f) (rbind x g).
Proof. destruct x; simpl; intros Hf; [apply Hf|done]. Qed.
Lemma sim_refl {A} (x : res A) : sim eq x x.
Proof. by destruct x. Qed.

Section local.
  Context (L : list key).
  Notation ag := (agree L).
  Lemma ag_set_dat k d w1 w2 : ag w1 w2 -> ag (set_dat k d w1) (set_dat k d w2).
  Proof.
    intros [H1 H2 H3]. split; [done| |done]. intros k' Hk'. simpl.
    destruct (decide (k = k')) as [->|Hn]; [by rewrite !lookup_insert|]. rewrite !lookup_insert_ne by done. by apply H2.
  Qed.
  Lemma ag_set_lam k n w1 w2 : ag w1 w2 -> ag (set_lam k n w1) (set_lam k n w2).
  Proof.
    intros [H1 H2 H3]. split; [done|done|]. intros k' Hk'. unfold lam; simpl.
    destruct (decide (k = k')) as [->|Hn]; [by rewrite !lookup_insert|]. rewrite !lookup_insert_ne by done. by apply H3.
  Qed.
  Lemma ag_time w1 w2 : ag w1 w2 -> get_current_time w1 = get_current_time w2.
  Proof. intros H. unfold get_current_time. by rewrite (ag_clock _ _ _ H). Qed.

  Ltac dat H k := rewrite (ag_dat _ _ _ H k) by assumption.

  Lemma loc_load_stream w1 w2 k : ag w1 w2 -> k ∈ L -> load_stream w1 k = load_stream w2 k.
  Proof. intros H Hk. unfold load_stream. by dat H k. Qed.
  Lemma loc_load_lt w1 w2 k : ag w1 w2 -> k ∈ L -> load_lockup_treasury w1 k = load_lockup_treasury w2 k.
  Proof. intros H Hk. unfold load_lockup_treasury. by dat H k. Qed.
  Lemma loc_load_mt w1 w2 k : ag w1 w2 -> k ∈ L -> load_merkle_treasury w1 k = load_merkle_treasury w2 k.
  Proof. intros H Hk. unfold load_merkle_treasury. by dat H k. Qed.
  Lemma loc_load_nc w1 w2 k : ag w1 w2 -> k ∈ L -> load_nft_collection w1 k = load_nft_collection w2 k.
  Proof. intros H Hk. unfold load_nft_collection. by dat H k. Qed.
  Lemma loc_load_campaign w1 w2 k : ag w1 w2 -> k ∈ L -> load_campaign w1 k = load_campaign w2 k.
  Proof. intros H Hk. unfold load_campaign. by dat H k. Qed.
  Lemma loc_load_mint w1 w2 k : ag w1 w2 -> k ∈ L -> load_mint w1 k = load_mint w2 k.
  Proof. intros H Hk. unfold load_mint. by dat H k. Qed.
  Lemma loc_load_token w1 w2 k : ag w1 w2 -> k ∈ L -> load_token w1 k = load_token w2 k.
  Proof. intros H Hk. unfold load_token. by dat H k. Qed.

  Lemma loc_transfer f t n w1 w2 : ag w1 w2 -> f ∈ L -> t ∈ L -> sim ag (system_transfer f t n w1) (system_transfer f t n w2).
  Proof.
    intros H Hf Ht. unfold system_transfer. rewrite (ag_dat _ _ _ H f Hf), (ag_lam _ _ _ H f Hf).
    destruct (wdat w2 !! f); [done|]. destruct (_ <? n); [done|]. simpl.
    assert (ag (set_lam f (lam w2 f - n) w1) (set_lam f (lam w2 f - n) w2)) as Ha by by apply ag_set_lam.
    rewrite (ag_lam _ _ _ Ha t Ht). by apply ag_set_lam.
  Qed.
  Lemma loc_init E p k sp d w1 w2 : ag w1 w2 -> p ∈ L -> k ∈ L -> sim ag (init_account E p k sp d w1) (init_account E p k sp d w2).
  Proof.
    intros H Hp Hk. unfold init_account. rewrite (ag_dat _ _ _ H k Hk), (ag_lam _ _ _ H k Hk).
    destruct (wdat w2 !! k); [done|]. apply sim_same. intros _. eapply sim_bind.
    - instantiate (1 := agree L). destruct (0 <? _); [by apply loc_transfer|done].
    - intros a b Hab. simpl. by apply ag_set_dat.
  Qed.
  Lemma loc_fund p k n d w1 w2 : ag w1 w2 -> p ∈ L -> k ∈ L -> sim ag (fund_account p k n d w1) (fund_account p k n d w2).
  Proof.
    intros H Hp Hk. unfold fund_account. rewrite (ag_dat _ _ _ H k Hk).
    destruct (wdat w2 !! k); [done|]. apply sim_same. intros _. eapply sim_bind.
    - instantiate (1 := agree L). destruct (0 <? _); [by apply loc_transfer|done].
    - intros a b Hab. simpl. by apply ag_set_dat.
  Qed.
  Lemma loc_ata E p k o m tp w1 w2 : ag w1 w2 -> p ∈ L -> k ∈ L -> m ∈ L -> sim ag (create_ata E p k o m tp w1) (create_ata E p k o m tp w2).
  Proof.
    intros H Hp Hk Hm. unfold create_ata. apply sim_same. intros a. apply sim_same. intros _.
    rewrite (loc_load_mint _ _ _ H Hm). apply sim_same. intros mm. apply sim_same. intros _. by apply loc_init.
  Qed.
  Lemma loc_ata_if E p k o m tp w1 w2 : ag w1 w2 -> p ∈ L -> k ∈ L -> m ∈ L ->
    sim ag (init_ata_if_needed E p k o m tp w1) (init_ata_if_needed E p k o m tp w2).
  Proof.
    intros H Hp Hk Hm. unfold init_ata_if_needed. rewrite (ag_dat _ _ _ H k Hk).
    destruct (wdat w2 !! k) as [[]|]; try done; [|by apply loc_ata].
    do 3 (apply sim_same; intros _). apply sim_same. intros a. apply sim_same. intros _. done.
  Qed.
  Lemma loc_mint E p k tp dec au fr w1 w2 : ag w1 w2 -> p ∈ L -> k ∈ L -> sim ag (create_mint E p k tp dec au fr w1) (create_mint E p k tp dec au fr w2).
  Proof. apply loc_init. Qed.
  Lemma loc_mint_to tp m to au sg n w1 w2 : ag w1 w2 -> m ∈ L -> to ∈ L -> sim ag (mint_to tp m to au sg n w1) (mint_to tp m to au sg n w2).
  Proof.
    intros H Hm Ht. unfold mint_to. rewrite (loc_load_mint _ _ _ H Hm), (loc_load_token _ _ _ H Ht).
    apply sim_same. intros mm. apply sim_same. intros t. do 6 (apply sim_same; intros _). simpl. by do 2 apply ag_set_dat.
  Qed.
  Lemma loc_md E p md m au sg nm sy ur sz w1 w2 : ag w1 w2 -> p ∈ L -> md ∈ L -> m ∈ L ->
    sim ag (create_metadata E p md m au sg nm sy ur sz w1) (create_metadata E p md m au sg nm sy ur sz w2).
  Proof.
    intros H Hp Hd Hm. unfold create_metadata. apply sim_same. intros _. rewrite (loc_load_mint _ _ _ H Hm).
    apply sim_same. intros mm. apply sim_same. intros b. apply sim_same. intros _. by apply loc_fund.
  Qed.
  Lemma loc_edition E p ed md m au sg w1 w2 : ag w1 w2 -> p ∈ L -> ed ∈ L -> md ∈ L -> m ∈ L ->
    sim ag (create_master_edition E p ed md m au sg w1) (create_master_edition E p ed md m au sg w2).
  Proof.
    intros H Hp He Hd Hm. unfold create_master_edition. rewrite (loc_load_mint _ _ _ H Hm), (ag_dat _ _ _ H md Hd).
    apply sim_same. intros mm. apply sim_same. intros b. do 2 (apply sim_same; intros _). apply sim_same. intros _.
    eapply sim_bind; [by apply loc_init|]. intros a c Hac. simpl. by apply ag_set_dat.
  Qed.
  Lemma loc_verify E md au a b c sg w1 w2 : ag w1 w2 -> md ∈ L -> b ∈ L -> c ∈ L ->
    sim ag (set_and_verify_collection E md au a b c sg w1) (set_and_verify_collection E md au a b c sg w2).
  Proof.
    intros H Hm Hb Hc. unfold set_and_verify_collection.
    rewrite (ag_dat _ _ _ H md Hm), (ag_dat _ _ _ H b Hb), (ag_dat _ _ _ H c Hc).
    repeat case_match; try done. apply sim_same. intros _. simpl. by do 2 apply ag_set_dat.
  Qed.
  Lemma loc_sign md sg w1 w2 : ag w1 w2 -> md ∈ L -> sim ag (sign_metadata md sg w1) (sign_metadata md sg w2).
  Proof.
    intros H Hm. unfold sign_metadata. rewrite (ag_dat _ _ _ H md Hm). repeat case_match; try done.
    apply sim_same. intros _. simpl. by apply ag_set_dat.
  Qed.
  Lemma loc_transfer_checked E tp f t au sg m am d w1 w2 : ag w1 w2 -> f ∈ L -> t ∈ L -> m ∈ L ->
    sim ag (transfer_checked E tp f t au sg m am d w1) (transfer_checked E tp f t au sg m am d w2).
  Proof.
    intros H Hf Ht Hm. unfold transfer_checked.
    rewrite (loc_load_token _ _ _ H Hf), (loc_load_token _ _ _ H Ht), (loc_load_mint _ _ _ H Hm).
    apply sim_same. intros tf. apply sim_same. intros mm. apply sim_same. intros td. do 6 (apply sim_same; intros _). rewrite (ag_clock _ _ _ H). apply sim_same. intros fe.
    destruct (f =? t); [done|]. apply sim_same. intros _. simpl. by do 2 apply ag_set_dat.
  Qed.
  Lemma loc_convert fee pr fd w1 w2 : ag w1 w2 -> fd ∈ L ->
    convert_usd_fee_to_lamports fee pr fd w1 = convert_usd_fee_to_lamports fee pr fd w2.
  Proof.
    intros H Hf. unfold convert_usd_fee_to_lamports, latest_round_data, oracle_decimals.
    by rewrite (ag_dat _ _ _ H fd Hf), (ag_clock _ _ _ H).
  Qed.
  Definition ag_fee (x y : world * Z) : Prop := ag x.1 y.1 /\ x.2 = y.2.
  Lemma loc_fee fee pr fd p t w1 w2 : ag w1 w2 -> fd ∈ L -> p ∈ L -> t ∈ L ->
    sim ag_fee (charge_fee fee pr fd p t w1) (charge_fee fee pr fd p t w2).
  Proof.
    intros H Hf Hp Ht. unfold charge_fee. rewrite (loc_convert _ _ _ _ _ H Hf). apply sim_same. intros n.
    destruct (0 <? n); [|by split]. eapply sim_bind; [by apply loc_transfer|]. intros a b Hab. by split.
  Qed.
  Lemma loc_collectible E k w1 w2 : ag w1 w2 -> k ∈ L -> safe_collectible_amount E k w1 = safe_collectible_amount E k w2.
  Proof. intros H Hk. unfold safe_collectible_amount. by rewrite (ag_lam _ _ _ H k Hk). Qed.
  Lemma loc_move f t n w1 w2 : ag w1 w2 -> f ∈ L -> t ∈ L -> sim ag (move_lamports f t n w1) (move_lamports f t n w2).
  Proof.
    intros H Hf Ht. unfold move_lamports. rewrite (ag_lam _ _ _ H f Hf). apply sim_same. intros r. simpl.
    assert (ag (set_lam f r w1) (set_lam f r w2)) as Ha by by apply ag_set_lam.
    rewrite (ag_lam _ _ _ Ha t Ht). by apply ag_set_lam.
  Qed.
End local.

Ltac memr := unfold create_reads, withdraw_reads; repeat first [apply elem_of_list_here | apply elem_of_list_further].

(** One step through two runs of the same code in agreeing worlds. *)
Ltac loc_step :=
  match goal with
  | H : agree ?L ?w1 ?w2 |- sim _ (rbind ?x _) (rbind ?y _) =>
      first
      [ apply sim_same; intro
      | match x with
        | load_stream w1 ?k => rewrite (loc_load_stream L w1 w2 k H) by memr; apply sim_same; intro
        | load_lockup_treasury w1 ?k => rewrite (loc_load_lt L w1 w2 k H) by memr; apply sim_same; intro
        | load_merkle_treasury w1 ?k => rewrite (loc_load_mt L w1 w2 k H) by memr; apply sim_same; intro
        | load_nft_collection w1 ?k => rewrite (loc_load_nc L w1 w2 k H) by memr; apply sim_same; intro
        | load_campaign w1 ?k => rewrite (loc_load_campaign L w1 w2 k H) by memr; apply sim_same; intro
        | load_mint w1 ?k => rewrite (loc_load_mint L w1 w2 k H) by memr; apply sim_same; intro
        | load_token w1 ?k => rewrite (loc_load_token L w1 w2 k H) by memr; apply sim_same; intro
        | safe_collectible_amount _ ?k w1 => rewrite (loc_collectible L _ k w1 w2 H) by memr; apply sim_same; intro
        | init_account _ _ _ _ _ w1 => eapply sim_bind; [apply (loc_init L); [exact H|memr|memr]|clear w1 w2 H; intros w1 w2 H]
        | create_ata _ _ _ _ _ _ w1 => eapply sim_bind; [apply (loc_ata L); [exact H|memr|memr|memr]|clear w1 w2 H; intros w1 w2 H]
        | init_ata_if_needed _ _ _ _ _ _ w1 => eapply sim_bind; [apply (loc_ata_if L); [exact H|memr|memr|memr]|clear w1 w2 H; intros w1 w2 H]
        | create_mint _ _ _ _ _ _ _ w1 => eapply sim_bind; [apply (loc_mint L); [exact H|memr|memr]|clear w1 w2 H; intros w1 w2 H]
        | mint_to _ _ _ _ _ _ w1 => eapply sim_bind; [apply (loc_mint_to L); [exact H|memr|memr]|clear w1 w2 H; intros w1 w2 H]
        | create_metadata _ _ _ _ _ _ _ _ _ _ w1 => eapply sim_bind; [apply (loc_md L); [exact H|memr|memr|memr]|clear w1 w2 H; intros w1 w2 H]
        | create_master_edition _ _ _ _ _ _ _ w1 => eapply sim_bind; [apply (loc_edition L); [exact H|memr|memr|memr|memr]|clear w1 w2 H; intros w1 w2 H]
        | sign_metadata _ _ w1 => eapply sim_bind; [apply (loc_sign L); [exact H|memr]|clear w1 w2 H; intros w1 w2 H]
        | transfer_checked _ _ _ _ _ _ _ _ _ w1 => eapply sim_bind; [apply (loc_transfer_checked L); [exact H|memr|memr|memr]|clear w1 w2 H; intros w1 w2 H]
        | move_lamports _ _ _ w1 => eapply sim_bind; [apply (loc_move L); [exact H|memr|memr]|clear w1 w2 H; intros w1 w2 H]
        | charge_fee _ _ _ _ _ w1 =>
            let x1 := fresh "wf" in let f1 := fresh "fee" in let x2 := fresh "wf" in let f2 := fresh "fee" in
            let H' := fresh "Hf" in
            eapply sim_bind; [apply (loc_fee L); [exact H|memr|memr|memr]|clear w1 w2 H; intros [x1 f1] [x2 f2] [H' ?]; simpl in *; subst f2]
        end ]
  | H : agree ?L ?w1 ?w2 |- context [get_current_time ?w1] => rewrite (ag_time L w1 w2 H)
  end.

Definition so L := fun x y : world * list event => x.2 = y.2 /\ agree L x.1 y.1.
Lemma so_same L r1 r2 : sim (so L) r1 r2 -> same_outcome L r1 r2.
Proof. destruct r1 as [[]|], r2 as [[]|]; simpl; done. Qed.
Ltac loc_set :=
  match goal with
  | H : agree ?L ?w1 ?w2 |- sim _ ?l _ =>
      match l with context [set_dat ?k ?d w1] =>
        let H' := fresh "H" in
        pose proof (ag_set_dat L k d w1 w2 H) as H'; revert H'; generalize (set_dat k d w1) (set_dat k d w2);
        clear w1 w2 H; intros w1 w2 H
      end
  end.
Ltac loc_all := repeat first [progress (cbv zeta) | loc_step | loc_set].

Definition so_create L := fun x y : world * Z * Z * nft_collection * mint =>
  agree L x.1.1.1.1 y.1.1.1.1 /\ x.1.1.1.2 = y.1.1.1.2 /\ x.1.1.2 = y.1.1.2 /\ x.1.2 = y.1.2 /\ x.2 = y.2.
Lemma local_create_accounts E sg a salt w1 w2 : agree (create_reads a) w1 w2 ->
  sim (so_create (create_reads a)) (create_accounts E sg a salt w1) (create_accounts E sg a salt w2).
Proof. intros H. unfold create_accounts. loc_all. done. Qed.
Lemma local_create_handler E sg a p sb mb nc dm w1 w2 : agree (create_reads a) w1 w2 ->
  sim (so (create_reads a)) (create_handler E sg a p sb mb nc dm w1) (create_handler E sg a p sb mb nc dm w2).
Proof.
  intros H. unfold create_handler. loc_all. eapply sim_bind with (R := agree (create_reads a)).
  - unfold nft_create_stream. loc_all. apply loc_verify; [exact H|memr|memr|memr].
  - clear w1 w2 H. intros w1 w2 H. loc_all. done.
Qed.
Definition so_withdraw L := fun x y : world * stream_data * mint => agree L x.1.1 y.1.1 /\ x.1.2 = y.1.2 /\ x.2 = y.2.
Lemma local_withdraw_accounts E sg a w1 w2 : agree (withdraw_reads a) w1 w2 ->
  sim (so_withdraw (withdraw_reads a)) (withdraw_accounts E sg a w1) (withdraw_accounts E sg a w2).
Proof. intros H. unfold withdraw_accounts. loc_all. done. Qed.
Lemma local_withdraw_handler E a n s m w1 w2 : agree (withdraw_reads a) w1 w2 ->
  sim (so (withdraw_reads a)) (withdraw_handler E a n s m w1) (withdraw_handler E a n s m w2).
Proof. intros H. unfold withdraw_handler. loc_all. done. Qed.

Lemma local_lockup E sg ix w1 w2 : agree (lockup_accounts ix) w1 w2 ->
  sim (so (lockup_accounts ix)) (lockup_exec E sg ix w1) (lockup_exec E sg ix w2).
Proof.
  intros H. unfold lockup_exec. apply sim_same. intros _. destruct ix; cbn [lockup_accounts] in *.
  - unfold initialize. loc_all. done.
  - unfold create_with_timestamps. eapply sim_bind; [by apply local_create_accounts|].
    intros [[[[x1 ?] ?] ?] ?] [[[[x2 ?] ?] ?] ?] (Ha & ? & ? & ? & ?); simpl in *; subst. by apply local_create_handler.
  - unfold create_with_durations. eapply sim_bind; [by apply local_create_accounts|].
    intros [[[[x1 ?] ?] ?] ?] [[[[x2 ?] ?] ?] ?] (Ha & ? & ? & ? & ?); simpl in *; subst. rewrite (ag_time _ _ _ Ha).
    apply sim_same. intros c. apply sim_same. intros e. by apply local_create_handler.
  - unfold renounce. loc_all. done.
  - unfold Lockup.cancel. loc_all. done.
  - unfold withdraw. eapply sim_bind; [by apply local_withdraw_accounts|].
    intros [[x1 ?] ?] [[x2 ?] ?] (Ha & ? & ?); simpl in *; subst. by apply local_withdraw_handler.
  - unfold withdraw_max. eapply sim_bind; [by apply local_withdraw_accounts|].
    intros [[x1 ?] ?] [[x2 ?] ?] (Ha & ? & ?); simpl in *; subst. rewrite (ag_time _ _ _ Ha).
    apply sim_same. intros n. by apply local_withdraw_handler.
  - unfold lockup_collect_fees. loc_all. done.
Qed.
Lemma local_merkle E sg ix w1 w2 : agree (merkle_accounts ix) w1 w2 ->
  sim (so (merkle_accounts ix)) (merkle_exec E sg ix w1) (merkle_exec E sg ix w2).
Proof.
  intros H. unfold merkle_exec. apply sim_same. intros _. destruct ix; cbn [merkle_accounts] in *.
  - unfold m_initialize. loc_all. done.
  - unfold create_campaign. loc_all. done.
  - unfold claim. loc_all. done.
  - unfold clawback. loc_all. done.
  - unfold merkle_collect_fees. loc_all. done.
Qed.

(** ** Instructions of either program *)
Inductive any_ix := IL (ix : lockup_ix) | IM (ix : merkle_ix).
Definition exec (E : env) (sg : list key) (i : any_ix) (w : world) : res (world * list event) :=
  match i with IL ix => lockup_exec E sg ix w | IM ix => merkle_exec E sg ix w end.
(** All accounts the instruction is given, and those among them it declares writable. *)
Definition accounts_of (i : any_ix) : list key := match i with IL ix => lockup_accounts ix | IM ix => merkle_accounts ix end.
Definition writable_of (i : any_ix) : list key := match i with IL ix => lockup_writable ix | IM ix => merkle_writable ix end.

Lemma exec_touches E sg i w w' evs : exec E sg i w = Ok (w', evs) -> only_touches (writable_of i) w w'.
Proof. destruct i; [apply lockup_touches|apply merkle_touches]. Qed.
Lemma exec_local E sg i w1 w2 : agree (accounts_of i) w1 w2 -> sim (so (accounts_of i)) (exec E sg i w1) (exec E sg i w2).
Proof. destruct i; [apply local_lockup|apply local_merkle]. Qed.
(** No instruction changes the clock. *)
Lemma ck_transfer f t n w w' : system_transfer f t n w = Ok w' -> wclock w' = wclock w.
Proof. unfold system_transfer. repeat case_match; try discriminate. by intros [= <-]. Qed.
Lemma ck_init E p k sp d w w' : init_account E p k sp d w = Ok w' -> wclock w' = wclock w.
Proof.
  unfold init_account. destruct (wdat w !! k); [discriminate|]. intros H. inv_all H. injection H as <-. simpl.
  set (need := if lam w k =? 0 then _ else _) in *. destruct (0 <? need); [by eapply ck_transfer|by injection He0 as <-].
Qed.
Lemma ck_fund p k n d w w' : fund_account p k n d w = Ok w' -> wclock w' = wclock w.
Proof.
  unfold fund_account. destruct (wdat w !! k); [discriminate|]. intros H. inv_all H. injection H as <-. simpl.
  destruct (0 <? n); [by eapply ck_transfer|by injection He0 as <-].
Qed.
Lemma ck_ata E p k o m tp w w' : create_ata E p k o m tp w = Ok w' -> wclock w' = wclock w.
Proof. unfold create_ata. intros H. inv_all H. by eapply ck_init. Qed.
Lemma ck_ata_if E p k o m tp w w' : init_ata_if_needed E p k o m tp w = Ok w' -> wclock w' = wclock w.
Proof.
  unfold init_ata_if_needed. destruct (wdat w !! k) as [[]|]; try discriminate; [|by apply ck_ata].
  intros H. inv_all H. by injection H as <-.
Qed.
Lemma ck_mint E p k tp dec au fr w w' : create_mint E p k tp dec au fr w = Ok w' -> wclock w' = wclock w.
Proof. apply ck_init. Qed.
Lemma ck_mint_to tp m to au sg n w w' : mint_to tp m to au sg n w = Ok w' -> wclock w' = wclock w.
Proof. unfold mint_to. intros H. inv_all H. by injection H as <-. Qed.
Lemma ck_md E p md m au sg nm sy ur sz w w' : create_metadata E p md m au sg nm sy ur sz w = Ok w' -> wclock w' = wclock w.
Proof. unfold create_metadata. intros H. inv_all H. by eapply ck_fund. Qed.
Lemma ck_edition E p ed md m au sg w w' : create_master_edition E p ed md m au sg w = Ok w' -> wclock w' = wclock w.
Proof. unfold create_master_edition. intros H. inv_all H. injection H as <-. simpl. by eapply ck_init. Qed.
Lemma ck_verify E md au a b c sg w w' : set_and_verify_collection E md au a b c sg w = Ok w' -> wclock w' = wclock w.
Proof. unfold set_and_verify_collection. intros H. repeat case_match; try discriminate. inv_all H. by injection H as <-. Qed.
Lemma ck_sign md sg w w' : sign_metadata md sg w = Ok w' -> wclock w' = wclock w.
Proof. unfold sign_metadata. intros H. repeat case_match; try discriminate. inv_all H. by injection H as <-. Qed.
Lemma ck_transfer_checked E tp f t au sg m am d w w' : transfer_checked E tp f t au sg m am d w = Ok w' -> wclock w' = wclock w.
Proof. unfold transfer_checked. intros H. inv_all H. destruct (f =? t); [by injection H as <-|]. inv_all H. by injection H as <-. Qed.
Lemma ck_fee fee_usd pr fd p t w w' fee : charge_fee fee_usd pr fd p t w = Ok (w', fee) -> wclock w' = wclock w.
Proof.
  unfold charge_fee. intros H. inv_all H. destruct (0 <? x); [|by injection H as <- <-]. inv_all H. injection H as <- <-. by eapply ck_transfer.
Qed.
Lemma ck_move f t n w w' : move_lamports f t n w = Ok w' -> wclock w' = wclock w.
Proof. unfold move_lamports. intros H. inv_all H. by injection H as <-. Qed.
Lemma ck_set k d w : wclock (set_dat k d w) = wclock w.
Proof. done. Qed.

Ltac ck_step :=
  match goal with
  | |- wclock ?w = wclock ?w => reflexivity
  | |- wclock (set_dat _ _ _) = _ => rewrite ck_set
  | H : init_account _ _ _ _ _ _ = Ok ?x |- wclock ?x = _ => rewrite (ck_init _ _ _ _ _ _ _ H)
  | H : create_ata _ _ _ _ _ _ _ = Ok ?x |- wclock ?x = _ => rewrite (ck_ata _ _ _ _ _ _ _ _ H)
  | H : init_ata_if_needed _ _ _ _ _ _ _ = Ok ?x |- wclock ?x = _ => rewrite (ck_ata_if _ _ _ _ _ _ _ _ H)
  | H : create_mint _ _ _ _ _ _ _ _ = Ok ?x |- wclock ?x = _ => rewrite (ck_mint _ _ _ _ _ _ _ _ _ H)
  | H : mint_to _ _ _ _ _ _ _ = Ok ?x |- wclock ?x = _ => rewrite (ck_mint_to _ _ _ _ _ _ _ _ H)
  | H : create_metadata _ _ _ _ _ _ _ _ _ _ _ = Ok ?x |- wclock ?x = _ => rewrite (ck_md _ _ _ _ _ _ _ _ _ _ _ _ H)
  | H : create_master_edition _ _ _ _ _ _ _ _ = Ok ?x |- wclock ?x = _ => rewrite (ck_edition _ _ _ _ _ _ _ _ _ H)
  | H : set_and_verify_collection _ _ _ _ _ _ _ _ = Ok ?x |- wclock ?x = _ => rewrite (ck_verify _ _ _ _ _ _ _ _ _ H)
  | H : sign_metadata _ _ _ = Ok ?x |- wclock ?x = _ => rewrite (ck_sign _ _ _ _ H)
  | H : transfer_checked _ _ _ _ _ _ _ _ _ _ = Ok ?x |- wclock ?x = _ => rewrite (ck_transfer_checked _ _ _ _ _ _ _ _ _ _ _ H)
  | H : charge_fee _ _ _ _ _ _ = Ok (?x, _) |- wclock ?x = _ => rewrite (ck_fee _ _ _ _ _ _ _ _ H)
  | H : move_lamports _ _ _ _ = Ok ?x |- wclock ?x = _ => rewrite (ck_move _ _ _ _ _ H)
  end.
Lemma ck_create_accounts E sg a salt w w' sb mb nc dm : create_accounts E sg a salt w = Ok (w', sb, mb, nc, dm) -> wclock w' = wclock w.
Proof. unfold create_accounts. intros H. inv_all H. injection H as <- <- <- <- <-. repeat ck_step. Qed.
Lemma ck_create_handler E sg a p sb mb nc dm w w' evs : create_handler E sg a p sb mb nc dm w = Ok (w', evs) -> wclock w' = wclock w.
Proof. unfold create_handler, nft_create_stream. intros H. inv_all H. injection H as <- <-. inv_all He0. repeat ck_step. Qed.
Lemma ck_withdraw_accounts E sg a w w' s m : withdraw_accounts E sg a w = Ok (w', s, m) -> wclock w' = wclock w.
Proof. unfold withdraw_accounts. intros H. inv_all H. injection H as <- <- <-. repeat ck_step. Qed.
Lemma ck_withdraw_handler E a n s m w w' evs : withdraw_handler E a n s m w = Ok (w', evs) -> wclock w' = wclock w.
Proof.
  unfold withdraw_handler. intros H. inv_all H. match goal with p : (world * Z)%type |- _ => destruct p as [w3 fee'] end.
  inv_all H. injection H as <- <-. repeat ck_step.
Qed.
Lemma exec_clock E sg i w w' evs : exec E sg i w = Ok (w', evs) -> wclock w' = wclock w.
Proof.
  destruct i as [ix|ix]; cbn [exec]; [unfold lockup_exec|unfold merkle_exec]; intros H; apply rbind_ok in H as (? & _ & H); destruct ix.
  - unfold initialize in H. inv_all H. injection H as <- <-. repeat ck_step.
  - unfold create_with_timestamps in H. inv_all H. match goal with p : (world * Z * Z * nft_collection * mint)%type |- _ => destruct p as [[[[wx sb] mb] nc] dm] end.
    rewrite (ck_create_handler _ _ _ _ _ _ _ _ _ _ _ H). exact (ck_create_accounts _ _ _ _ _ _ _ _ _ _ He).
  - unfold create_with_durations in H. inv_all H. match goal with p : (world * Z * Z * nft_collection * mint)%type |- _ => destruct p as [[[[wx sb] mb] nc] dm] end. inv_all H.
    rewrite (ck_create_handler _ _ _ _ _ _ _ _ _ _ _ H). exact (ck_create_accounts _ _ _ _ _ _ _ _ _ _ He).
  - unfold renounce in H. inv_all H. injection H as <- <-. repeat ck_step.
  - unfold Lockup.cancel in H. inv_all H. injection H as <- <-. repeat ck_step.
  - unfold withdraw in H. inv_all H. match goal with p : (world * stream_data * mint)%type |- _ => destruct p as [[wx s] m] end.
    rewrite (ck_withdraw_handler _ _ _ _ _ _ _ _ H). exact (ck_withdraw_accounts _ _ _ _ _ _ _ He).
  - unfold withdraw_max in H. inv_all H. match goal with p : (world * stream_data * mint)%type |- _ => destruct p as [[wx s] m] end. inv_all H.
    rewrite (ck_withdraw_handler _ _ _ _ _ _ _ _ H). exact (ck_withdraw_accounts _ _ _ _ _ _ _ He).
  - unfold lockup_collect_fees in H. inv_all H. injection H as <- <-. repeat ck_step.
  - unfold m_initialize in H. inv_all H. injection H as <- <-. repeat ck_step.
  - unfold create_campaign in H. inv_all H. injection H as <- <-. repeat ck_step.
  - unfold claim in H. inv_all H. match goal with p : (world * Z)%type |- _ => destruct p as [w3 fee'] end.
    inv_all H. injection H as <- <-. repeat ck_step.
  - unfold clawback in H. inv_all H. injection H as <- <-. repeat ck_step.
  - unfold merkle_collect_fees in H. inv_all H. injection H as <- <-. repeat ck_step.
Qed.

(** ** C63 *)
(** The outcome of an instruction - success or failure, the error, the events, and what the accounts hold
    afterwards - is a function of the clock and of the accounts it was given. *)
Theorem C63_local : forall E sg i w1 w2,
  wclock w1 = wclock w2 ->
  (forall k, k ∈ accounts_of i -> wdat w1 !! k = wdat w2 !! k /\ lam w1 k = lam w2 k) ->
  same_outcome (accounts_of i) (exec E sg i w1) (exec E sg i w2).
Proof.
  intros E sg i w1 w2 Hc Hk. apply so_same, exec_local. split; [done| |]; intros k H; by destruct (Hk k H).
Qed.
(** What an instruction may write it is given. *)
Theorem C63_writable : forall i k, k ∈ writable_of i -> k ∈ accounts_of i.
Proof.
  intros [[]|[]] k; cbn [writable_of accounts_of lockup_writable merkle_writable lockup_accounts merkle_accounts];
    unfold create_writable, withdraw_writable, create_reads, withdraw_reads; rewrite !elem_of_cons, elem_of_nil; tauto.
Qed.

(** [i] changed none of the accounts [L]. *)
Definition unchanged (L : list key) (w w' : world) : Prop :=
  forall k, k ∈ L -> wdat w' !! k = wdat w !! k /\ lam w' k = lam w k.
(** The same observable world: clock, data and lamports of every account. *)
Definition same_world (w1 w2 : world) : Prop :=
  wclock w1 = wclock w2 /\ (forall k, wdat w1 !! k = wdat w2 !! k) /\ (forall k, lam w1 k = lam w2 k).

(** An instruction that changed none of the accounts of [j] does not influence [j]: same error or same events and
    same effect. *)
Theorem C63_not_influenced : forall E sg1 sg2 i j w w1 ev1,
  exec E sg1 i w = Ok (w1, ev1) -> unchanged (accounts_of j) w w1 ->
  same_outcome (accounts_of j) (exec E sg2 j w) (exec E sg2 j w1).
Proof.
  intros E sg1 sg2 i j w w1 ev1 H Hu. apply C63_local; [by rewrite (exec_clock _ _ _ _ _ _ H)|].
  intros k Hk. destruct (Hu k Hk) as [-> ->]. done.
Qed.

(** Two instructions that both succeed in [w], and neither of which changes an account of the other, succeed in
    either order, with the same events and the same final world. *)
Theorem C63_commute : forall E sg1 sg2 i j w w1 ev1 w2 ev2,
  exec E sg1 i w = Ok (w1, ev1) -> exec E sg2 j w = Ok (w2, ev2) ->
  unchanged (accounts_of j) w w1 -> unchanged (accounts_of i) w w2 ->
  exists w12 w21, exec E sg2 j w1 = Ok (w12, ev2) /\ exec E sg1 i w2 = Ok (w21, ev1) /\ same_world w12 w21.
Proof.
  intros E sg1 sg2 i j w w1 ev1 w2 ev2 H1 H2 U1 U2.
  pose proof (C63_not_influenced _ _ sg2 _ j _ _ _ H1 U1) as Hj. pose proof (C63_not_influenced _ _ sg1 _ i _ _ _ H2 U2) as Hi.
  rewrite H2 in Hj. rewrite H1 in Hi. unfold same_outcome in Hi, Hj.
  destruct (exec E sg2 j w1) as [[w12 e12]|] eqn:E12; [|done]. destruct (exec E sg1 i w2) as [[w21 e21]|] eqn:E21; [|done].
  destruct Hj as [<- Aj], Hi as [<- Ai]. exists w12, w21. split; [done|]. split; [done|].
  pose proof (exec_touches _ _ _ _ _ _ H1) as T1. pose proof (exec_touches _ _ _ _ _ _ H2) as T2.
  pose proof (exec_touches _ _ _ _ _ _ E12) as T12. pose proof (exec_touches _ _ _ _ _ _ E21) as T21.
  split. { rewrite (exec_clock _ _ _ _ _ _ E12), (exec_clock _ _ _ _ _ _ E21), (exec_clock _ _ _ _ _ _ H1), (exec_clock _ _ _ _ _ _ H2). done. }
  assert (forall k, wdat w12 !! k = wdat w21 !! k /\ lam w12 k = lam w21 k) as Hall; [|split; intros k; apply Hall].
  intros k. destruct (decide (k ∈ accounts_of i)) as [Ii|Ni], (decide (k ∈ accounts_of j)) as [Ij|Nj].
  - rewrite <- (ag_dat _ _ _ Aj k Ij), <- (ag_lam _ _ _ Aj k Ij), <- (ag_dat _ _ _ Ai k Ii), <- (ag_lam _ _ _ Ai k Ii).
    destruct (U1 k Ij) as [-> ->], (U2 k Ii) as [-> ->]. done.
  - assert (k ∉ writable_of j) as Nw by (intros ?; by apply Nj, C63_writable).
    destruct (T12 k Nw) as [-> ->]. rewrite <- (ag_dat _ _ _ Ai k Ii), <- (ag_lam _ _ _ Ai k Ii). done.
  - assert (k ∉ writable_of i) as Nw by (intros ?; by apply Ni, C63_writable).
    destruct (T21 k Nw) as [-> ->]. rewrite <- (ag_dat _ _ _ Aj k Ij), <- (ag_lam _ _ _ Aj k Ij). done.
  - assert (k ∉ writable_of j) as Nw by (intros ?; by apply Nj, C63_writable).
    assert (k ∉ writable_of i) as Nw' by (intros ?; by apply Ni, C63_writable).
    destruct (T12 k Nw) as [-> ->], (T21 k Nw') as [-> ->], (T1 k Nw') as [-> ->], (T2 k Nw) as [-> ->]. done.
Qed.
(** In particular two instructions neither of which declares an account of the other writable (the runtime executes
    such transactions in parallel). *)
Corollary C63_parallel : forall E sg1 sg2 i j w w1 ev1 w2 ev2,
  exec E sg1 i w = Ok (w1, ev1) -> exec E sg2 j w = Ok (w2, ev2) ->
  (forall k, k ∈ writable_of i -> k ∉ accounts_of j) -> (forall k, k ∈ writable_of j -> k ∉ accounts_of i) ->
  exists w12 w21, exec E sg2 j w1 = Ok (w12, ev2) /\ exec E sg1 i w2 = Ok (w21, ev1) /\ same_world w12 w21.
Proof.
  intros E sg1 sg2 i j w w1 ev1 w2 ev2 H1 H2 Hij Hji. eapply C63_commute; [exact H1|exact H2| |].
  - intros k Hk. apply (exec_touches _ _ _ _ _ _ H1). intros Hw. exact (Hij k Hw Hk).
  - intros k Hk. apply (exec_touches _ _ _ _ _ _ H2). intros Hw. exact (Hji k Hw Hk).
Qed.

(** ** Examples *)
Lemma disjoint_check (l m : list key) : forallb (fun k => negb (bool_decide (k ∈ m))) l = true -> forall k, k ∈ l -> k ∉ m.
Proof.
  intros H k Hk. rewrite forallb_forall in H. specialize (H k). rewrite <- elem_of_list_In in H. specialize (H Hk).
  destruct (bool_decide_reflect (k ∈ m)); done.
Qed.
(** A claim for a newcomer and a withdrawal from a stream: disjoint, and both succeed. *)
Example C63_parallel_example :
  let i := IM (MClaim (claim_by kOther 1500 0 2 kCollector) 2 200 [nodeAB]) in
  let j := IL (LWithdraw (withdraw_to 2 kRecipient) 100) in
  let w := T 1800 w5 in
  is_ok (exec E0 [kOther] i w) = true /\ is_ok (exec E0 [kRecipient] j w) = true /\
  (forall k, k ∈ writable_of i -> k ∉ accounts_of j) /\ (forall k, k ∈ writable_of j -> k ∉ accounts_of i).
Proof.
  cbv zeta. split; [vm_compute; reflexivity|]. split; [vm_compute; reflexivity|].
  split; apply disjoint_check; vm_compute; reflexivity.
Qed.
(** A withdrawal from one stream and the renouncement of another. *)
Example C63_commute_example :
  let i := IL (LWithdraw (withdraw_to 1 kRecipient) 100) in
  let j := IL (LRenounce (renounce_of 2)) in
  let w := T 1600 w2 in
  is_ok (exec E0 [kRecipient] i w) = true /\ is_ok (exec E0 [kSender] j w) = true /\
  unchanged (accounts_of j) w (after (exec E0 [kRecipient] i w) w) /\
  unchanged (accounts_of i) w (after (exec E0 [kSender] j w) w).
Proof.
  cbv zeta. split; [vm_compute; reflexivity|]. split; [vm_compute; reflexivity|].
  split; unfold unchanged; apply Forall_forall; repeat (apply List.Forall_cons; [split; vm_compute; reflexivity|]); apply List.Forall_nil.
Qed.
(** Without the premise the order matters: the same amount can be withdrawn once only. *)
Example C63_conflict_example :
  let i := IL (LWithdrawMax (withdraw_to 1 kRecipient)) in
  let w := T 1600 w2 in
  is_ok (exec E0 [kRecipient] i w) = true /\
  is_ok (exec E0 [kRecipient] i (after (exec E0 [kRecipient] i w) w)) = false.
Proof. cbv zeta. split; vm_compute; reflexivity. Qed.

Print Assumptions C63_local.
Print Assumptions C63_writable.
Print Assumptions C63_not_influenced.
Print Assumptions C63_commute.
Print Assumptions C63_parallel.
