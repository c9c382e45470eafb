(** C65: payouts commute. Claims of different entries - of the same campaign or of different ones - and withdrawals from
    different streams can be executed in either order, although they share accounts (treasury, campaign, vault, payer). *)
From Verif Require Export PropLocal.
From Verif Require Import Lockup.

(** ** Worlds that differ by amounts on some accounts
    [ws] looks like [w] through the accounts [S], except that the lamports of [k] are shifted by [fl k], the balance of a
    token account [k] by [ft k], and that the campaign [lc], if any, may differ in a way that a claim at this time
    overwrites. *)
Definition dshift (lc : option key) (now : Z) (z : Z) (k : key) (d ds : option adata) : Prop :=
  match d with
  | Some (DToken t) => ds = Some (DToken (with_amount t (t_amount t + z)))
  | Some (DCampaign c) =>
      if decide (lc = Some k)
      then exists c', ds = Some (DCampaign c') /\ campaign_claim c' now = campaign_claim c now
      else ds = d
  | _ => ds = d
  end.
Record shifted (S : list key) (fl ft : key -> Z) (lc : option key) (w ws : world) : Prop := {
  sh_clock : wclock ws = wclock w;
  sh_lam : forall k, k ∈ S -> lam ws k = lam w k + fl k;
  sh_dat : forall k, k ∈ S -> dshift lc (get_current_time w) (ft k) k (wdat w !! k) (wdat ws !! k) }.

Definition tok_amount (w : world) (k : key) : Z := match wdat w !! k with Some (DToken t) => t_amount t | _ => 0 end.

Section shift.
  Context (S : list key) (fl ft : key -> Z).
  Notation sh := (shifted S fl ft).
  Lemma sh_time lc w ws : sh lc w ws -> get_current_time ws = get_current_time w.
  Proof. intros H. unfold get_current_time. by rewrite (sh_clock _ _ _ _ _ _ H). Qed.
  Lemma sh_none lc w ws k : sh lc w ws -> k ∈ S -> wdat w !! k = None -> wdat ws !! k = None.
  Proof. intros H Hk Hn. pose proof (sh_dat _ _ _ _ _ _ H k Hk) as Hd. by rewrite Hn in Hd. Qed.
  Lemma sh_plain lc w ws k d : sh lc w ws -> k ∈ S -> wdat w !! k = Some d ->
    match d with DToken _ | DCampaign _ => False | _ => True end -> wdat ws !! k = Some d.
  Proof. intros H Hk Hn Hp. pose proof (sh_dat _ _ _ _ _ _ H k Hk) as Hd. rewrite Hn in Hd. by destruct d. Qed.
  Lemma sh_token lc w ws k t : sh lc w ws -> k ∈ S -> wdat w !! k = Some (DToken t) ->
    wdat ws !! k = Some (DToken (with_amount t (t_amount t + ft k))).
  Proof. intros H Hk Hn. pose proof (sh_dat _ _ _ _ _ _ H k Hk) as Hd. by rewrite Hn in Hd. Qed.
  Lemma sh_campaign w ws k c : sh (Some k) w ws -> k ∈ S -> wdat w !! k = Some (DCampaign c) ->
    exists c', wdat ws !! k = Some (DCampaign c') /\ campaign_claim c' (get_current_time w) = campaign_claim c (get_current_time w).
  Proof.
    intros H Hk Hn. pose proof (sh_dat _ _ _ _ _ _ H k Hk) as Hd. rewrite Hn in Hd. unfold dshift in Hd.
    by rewrite decide_True in Hd.
  Qed.

  Lemma sh_set_dat lc w ws k d ds : sh lc w ws -> dshift lc (get_current_time w) (ft k) k (Some d) (Some ds) ->
    sh lc (set_dat k d w) (set_dat k ds ws).
  Proof.
    intros [H1 H2 H3] Hd. split; [done|done|]. intros k' Hk'. simpl. change (get_current_time (set_dat k d w)) with (get_current_time w).
    destruct (decide (k = k')) as [<-|Hn]; [by rewrite !lookup_insert|]. rewrite !lookup_insert_ne by done. by apply H3.
  Qed.
  (** Writing the campaign removes the difference there. *)
  Lemma sh_set_campaign w ws k c : sh (Some k) w ws -> sh None (set_dat k (DCampaign c) w) (set_dat k (DCampaign c) ws).
  Proof.
    intros [H1 H2 H3]. split; [done|done|]. intros k' Hk'. simpl. change (get_current_time (set_dat k (DCampaign c) w)) with (get_current_time w).
    destruct (decide (k = k')) as [<-|Hn]; [by rewrite !lookup_insert|]. rewrite !lookup_insert_ne by done.
    specialize (H3 _ Hk'). unfold dshift in *. destruct (wdat w !! k') as [[]|]; try done.
    rewrite decide_False in H3 by congruence. done.
  Qed.
  Lemma sh_set_plain lc w ws k d : sh lc w ws -> match d with DToken _ | DCampaign _ => False | _ => True end ->
    sh lc (set_dat k d w) (set_dat k d ws).
  Proof. intros H Hd. apply sh_set_dat; [done|]. by destruct d. Qed.
  Lemma sh_set_lam lc w ws k n ns : sh lc w ws -> ns = n + fl k -> sh lc (set_lam k n w) (set_lam k ns ws).
  Proof.
    intros [H1 H2 H3] ->. split; [done| |exact H3]. intros k' Hk'. unfold lam. simpl.
    destruct (decide (k = k')) as [<-|Hn]; [by rewrite !lookup_insert|]. rewrite !lookup_insert_ne by done. by apply H2.
  Qed.

  Lemma sh_transfer lc w ws f t n w' : sh lc w ws -> f ∈ S -> t ∈ S -> f <> t -> system_transfer f t n w = Ok w' ->
    0 <= lam w' f + fl f ->
    exists ws', system_transfer f t n ws = Ok ws' /\ sh lc w' ws'.
  Proof.
    intros H Hf Ht Hne Hx Hb. unfold system_transfer in *. destruct (wdat w !! f) eqn:Hd; [discriminate|].
    rewrite (sh_none _ _ _ _ H Hf Hd). destruct (Z.ltb_spec (lam w f) n) as [|Hn]; [discriminate|]. injection Hx as <-.
    rewrite (sh_lam _ _ _ _ _ _ H f Hf).
    assert (lam (set_lam t (lam (set_lam f (lam w f - n) w) t + n) (set_lam f (lam w f - n) w)) f = lam w f - n) as Hl.
    { unfold lam at 1. simpl. rewrite lookup_insert_ne by done. by rewrite lookup_insert. }
    rewrite Hl in Hb. rewrite (proj2 (Z.ltb_ge _ _)) by lia. eexists. split; [done|].
    assert (sh lc (set_lam f (lam w f - n) w) (set_lam f (lam w f + fl f - n) ws)) as H1 by (apply sh_set_lam; [done|lia]).
    apply sh_set_lam; [done|]. rewrite (sh_lam _ _ _ _ _ _ H1 t Ht). lia.
  Qed.
  Lemma sh_init lc E w ws p k sp d w' : sh lc w ws -> p ∈ S -> k ∈ S -> fl k = 0 ->
    match d with DToken _ => ft k = 0 | DCampaign _ => False | _ => True end ->
    init_account E p k sp d w = Ok w' -> 0 <= lam w' p + fl p ->
    exists ws', init_account E p k sp d ws = Ok ws' /\ sh lc w' ws'.
  Proof.
    intros H Hp Hk Hfk Hd Hx Hb. unfold init_account in *. destruct (wdat w !! k) eqn:Hn; [discriminate|].
    rewrite (sh_none _ _ _ _ H Hk Hn), (sh_lam _ _ _ _ _ _ H k Hk), Hfk, Z.add_0_r.
    apply rbind_ok in Hx as (u & Hu & Hx). rewrite Hu. cbn [rbind]. apply ensure_ok in Hu. bools.
    set (need := if lam w k =? 0 then _ else _) in *. apply rbind_ok in Hx as (w1 & H1 & Hx). injection Hx as <-.
    assert (lam w1 p = lam (set_dat k d w1) p) as Hl by done.
    assert (exists ws1, (if 0 <? need then system_transfer p k need ws else Ok ws) = Ok ws1 /\ sh lc w1 ws1) as (ws1 & -> & Hs1).
    { destruct (0 <? need); [|injection H1 as <-; by eexists]. eapply sh_transfer; [exact H|done|done|done|exact H1|lia]. }
    cbn [rbind]. eexists. split; [done|]. apply sh_set_dat; [done|]. unfold dshift. destruct d; try done.
    rewrite Hd, Z.add_0_r. by destruct t.
  Qed.
  Lemma sh_ata_if lc E w ws p k o m tp w' : sh lc w ws -> p ∈ S -> k ∈ S -> m ∈ S ->
    (wdat w !! k = None -> fl k = 0 /\ ft k = 0) ->
    init_ata_if_needed E p k o m tp w = Ok w' -> 0 <= lam w' p + fl p ->
    exists ws', init_ata_if_needed E p k o m tp ws = Ok ws' /\ sh lc w' ws'.
  Proof.
    intros H Hp Hk Hm Hfk Hx Hb. unfold init_ata_if_needed in *. destruct (wdat w !! k) as [d|] eqn:Hd.
    - destruct d; try discriminate. rewrite (sh_token _ _ _ _ _ H Hk Hd).
      cbn [with_amount t_mint t_owner t_prog]. apply rbind_ok in Hx as (u & Hu & Hx). rewrite Hu. cbn [rbind].
      apply rbind_ok in Hx as (u1 & Hu1 & Hx). rewrite Hu1. cbn [rbind]. apply rbind_ok in Hx as (u2 & Hu2 & Hx). rewrite Hu2. cbn [rbind].
      apply rbind_ok in Hx as (u3 & Hu3 & Hx). rewrite Hu3. cbn [rbind]. apply rbind_ok in Hx as (u4 & Hu4 & Hx). rewrite Hu4. cbn [rbind].
      injection Hx as <-. by eexists.
    - rewrite (sh_none _ _ _ _ H Hk Hd). unfold create_ata in *. destruct (Hfk eq_refl) as [F1 F2].
      apply rbind_ok in Hx as (u & Hu & Hx). rewrite Hu. cbn [rbind].
      apply rbind_ok in Hx as (u1 & Hu1 & Hx). rewrite Hu1. cbn [rbind]. apply rbind_ok in Hx as (mm & Hmm & Hx).
      apply load_mint_ok in Hmm. rewrite (proj2 (load_mint_ok ws m mm) (sh_plain _ _ _ _ _ H Hm Hmm I)). cbn [rbind].
      apply rbind_ok in Hx as (u2 & Hu2 & Hx). rewrite Hu2. cbn [rbind].
      eapply sh_init; [exact H|done|done|done|exact F2|exact Hx|done].
  Qed.
  Lemma sh_fee lc w ws fee_usd pr fd p t w' fee o r dc : sh lc w ws -> p ∈ S -> t ∈ S -> fd ∈ S -> p <> t ->
    wdat w !! fd = Some (DFeed o r dc) ->
    charge_fee fee_usd pr fd p t w = Ok (w', fee) -> 0 <= lam w' p + fl p ->
    exists ws', charge_fee fee_usd pr fd p t ws = Ok (ws', fee) /\ sh lc w' ws'.
  Proof.
    intros H Hp Ht Hf Hne Hfd Hx Hb. unfold charge_fee in *.
    assert (convert_usd_fee_to_lamports fee_usd pr fd ws = convert_usd_fee_to_lamports fee_usd pr fd w) as ->.
    { apply oracle_same; [apply (sh_clock _ _ _ _ _ _ H)|]. rewrite Hfd. exact (sh_plain _ _ _ _ _ H Hf Hfd I). }
    apply rbind_ok in Hx as (n & Hn & Hx). rewrite Hn. cbn [rbind]. destruct (0 <? n).
    - apply rbind_ok in Hx as (w1 & H1 & Hx). injection Hx as <- <-.
      destruct (sh_transfer _ _ _ _ _ _ _ H Hp Ht Hne H1 Hb) as (ws1 & -> & Hs). cbn [rbind]. by eexists.
    - injection Hx as <- <-. by eexists.
  Qed.
  Lemma sh_transfer_checked lc w ws E tp f t au sgd m am d w' : sh lc w ws -> f ∈ S -> t ∈ S -> m ∈ S -> f <> t ->
    transfer_checked E tp f t au sgd m am d w = Ok w' ->
    0 <= tok_amount w' f + ft f -> tok_amount w' t + ft t <= U64_MAX ->
    exists ws', transfer_checked E tp f t au sgd m am d ws = Ok ws' /\ sh lc w' ws'.
  Proof.
    intros H Hf Ht Hm Hne Hx Hb1 Hb2. unfold transfer_checked in *.
    apply rbind_ok in Hx as (tf & Htf & Hx). apply rbind_ok in Hx as (mm & Hmm & Hx). apply rbind_ok in Hx as (td & Htd & Hx).
    apply load_token_ok in Htf, Htd. apply load_mint_ok in Hmm.
    rewrite (proj2 (load_token_ok ws f _) (sh_token _ _ _ _ _ H Hf Htf)). cbn [rbind].
    rewrite (proj2 (load_mint_ok ws m mm) (sh_plain _ _ _ _ _ H Hm Hmm I)). cbn [rbind].
    rewrite (proj2 (load_token_ok ws t _) (sh_token _ _ _ _ _ H Ht Htd)). cbn [rbind].
    cbn [with_amount t_mint t_owner t_prog t_amount t_frozen].
    apply rbind_ok in Hx as (u & Hu & Hx). rewrite Hu. cbn [rbind]. apply rbind_ok in Hx as (u1 & Hu1 & Hx). rewrite Hu1. cbn [rbind].
    apply rbind_ok in Hx as (u2 & Hu2 & Hx). apply rbind_ok in Hx as (u3 & Hu3 & Hx). apply rbind_ok in Hx as (u4 & Hu4 & Hx).
    apply rbind_ok in Hx as (u5 & Hu5 & Hx). apply rbind_ok in Hx as (fe & Hfe & Hx). rewrite (proj2 (Z.eqb_neq _ _) Hne) in *.
    apply rbind_ok in Hx as (u6 & Hu6 & Hx). injection Hx as <-.
    unfold tok_amount in Hb1, Hb2. rewrite wdat_set_dat, lookup_insert in Hb2. cbn [with_amount t_amount] in Hb2.
    rewrite wdat_set_dat, lookup_insert_ne, wdat_set_dat, lookup_insert in Hb1 by done. cbn [with_amount t_amount] in Hb1.
    rewrite (proj2 (Z.leb_le am _)) by lia. cbn [ensure rbind]. rewrite Hu3. cbn [rbind]. rewrite Hu4. cbn [rbind]. rewrite Hu5. cbn [rbind]. rewrite (sh_clock _ _ _ _ _ _ H), Hfe. cbn [rbind].
    rewrite (proj2 (Z.leb_le _ U64_MAX)) by lia. cbn [ensure rbind]. eexists. split; [done|].
    apply sh_set_dat; [apply sh_set_dat; [done|]|]; unfold dshift, with_amount; cbn; do 3 f_equal; lia.
  Qed.
End shift.

(** ** Payouts: instructions that move tokens from the vault of a stream or campaign to the token account of somebody *)
(** Who pays lamports, who is paid, into which token account, from which vault, of which stream or campaign; the treasury
    getting the fee, the accounts only read (mints, oracle feed), the stream NFT's account, and the accounts created. *)
Record roles := Roles { y_payer : key; y_owner : key; y_dest : key; y_vault : key; y_own : key;
  y_treas : list key; y_ro : list key; y_nft : list key; y_new : list key }.
Definition acct (p : roles) : list key :=
  y_payer p :: y_dest p :: y_vault p :: y_own p :: y_treas p ++ y_ro p ++ y_nft p ++ y_new p.
Definition passive (d : adata) : Prop :=
  match d with DToken _ | DCampaign _ | DStream _ | DClaimReceipt => False | _ => True end.
(** How a payout may update its stream or campaign. *)
Definition own_step (now : Z) (d d' : adata) : Prop :=
  match d with
  | DCampaign c => d' = DCampaign (campaign_claim c now)
  | DStream _ => exists s', d' = DStream s'
  | _ => False
  end.
(** [n]: what leaves the vault, and what arrives. *)
Record pay_eff (p : roles) (w w' : world) (vt dt : tokacc) (n : Z * Z) (o o' : adata) : Prop := {
  ef_clock : wclock w' = wclock w;
  ef_payer : lam w' (y_payer p) <= lam w (y_payer p);
  ef_floor : lam w' (y_payer p) = lam w (y_payer p) \/ 0 <= lam w' (y_payer p);
  ef_lam : forall k, k <> y_payer p -> k <> y_dest p -> k ∉ y_treas p -> k ∉ y_new p -> lam w' k = lam w k;
  ef_amount : 0 <= n.2 <= n.1 /\ n.1 <= t_amount vt;
  ef_room : t_amount dt + n.2 <= U64_MAX;
  ef_ne : y_vault p <> y_dest p;
  ef_vault : wdat w !! y_vault p = Some (DToken vt);
  ef_vault_owner : t_owner vt = y_own p;
  ef_dest : dest_before w (y_dest p) dt;
  ef_dest_owner : t_owner dt = y_owner p;
  ef_own : wdat w !! y_own p = Some o;
  ef_own_step : own_step (get_current_time w) o o';
  ef_plain : forall k, k ∈ y_treas p ++ y_ro p -> exists d, wdat w !! k = Some d /\ passive d;
  ef_nft : forall k, k ∈ y_nft p -> exists t, wdat w !! k = Some (DToken t);
  ef_new : forall k, k ∈ y_new p -> wdat w !! k = None;
  ef_vault' : wdat w' !! y_vault p = Some (DToken (with_amount vt (t_amount vt - n.1)));
  ef_dest' : wdat w' !! y_dest p = Some (DToken (with_amount dt (t_amount dt + n.2)));
  ef_own' : wdat w' !! y_own p = Some o';
  ef_new' : forall k, k ∈ y_new p -> wdat w' !! k = Some DClaimReceipt;
  ef_other : forall k, k <> y_vault p -> k <> y_dest p -> k <> y_own p -> k ∉ y_new p -> wdat w' !! k = wdat w !! k }.
Definition has_eff (p : roles) (w w' : world) : Prop := exists vt dt n o o', pay_eff p w w' vt dt n o o'.

Lemma tok_token w k t : wdat w !! k = Some (DToken t) -> tok_amount w k = t_amount t.
Proof. intros H. unfold tok_amount. by rewrite H. Qed.
Lemma tok_same w w' k : wdat w' !! k = wdat w !! k -> tok_amount w' k = tok_amount w k.
Proof. intros H. unfold tok_amount. by rewrite H. Qed.
Lemma tok_none w k : wdat w !! k = None -> tok_amount w k = 0.
Proof. intros H. unfold tok_amount. by rewrite H. Qed.
Lemma tok_plain w k d : wdat w !! k = Some d -> match d with DToken _ => False | _ => True end -> tok_amount w k = 0.
Proof. intros H Hd. unfold tok_amount. rewrite H. by destruct d. Qed.
Lemma with_amount_id t z : z = t_amount t -> with_amount t z = t.
Proof. intros ->. by destruct t. Qed.
Lemma with_amount_twice t a b : with_amount (with_amount t a) b = with_amount t b.
Proof. done. Qed.
Lemma dshift_refl now lc k d z : z = 0 -> dshift lc now z k d d.
Proof.
  intros ->. unfold dshift. destruct d as [[]|]; try done; [|by rewrite Z.add_0_r, with_amount_id].
  destruct (decide _); [|done]. by eexists.
Qed.
Lemma campaign_claim_twice c now : campaign_claim (campaign_claim c now) now = campaign_claim c now.
Proof.
  unfold campaign_claim. destruct (c_first_claim c =? 0) eqn:H; [|by rewrite H]. simpl. by destruct (now =? 0).
Qed.

Section eff.
  Context {p : roles} {w w' : world} {vt dt : tokacc} {n : Z * Z} {o o' : adata} (F : pay_eff p w w' vt dt n o o').
  Lemma eff_time : get_current_time w' = get_current_time w.
  Proof. unfold get_current_time. by rewrite (ef_clock _ _ _ _ _ _ _ _ F). Qed.
  Lemma eff_own_dest : y_own p <> y_dest p.
  Proof.
    intros He. pose proof (ef_own _ _ _ _ _ _ _ _ F) as Ho. pose proof (ef_own_step _ _ _ _ _ _ _ _ F) as Hs. rewrite He in Ho.
    destruct (ef_dest _ _ _ _ _ _ _ _ F) as [Hd|[Hd _]]; rewrite Ho in Hd; [|done]. injection Hd as ->. done.
  Qed.
  Lemma eff_own_vault : y_own p <> y_vault p.
  Proof.
    intros He. pose proof (ef_own _ _ _ _ _ _ _ _ F) as Ho. pose proof (ef_own_step _ _ _ _ _ _ _ _ F) as Hs. rewrite He in Ho.
    rewrite (ef_vault _ _ _ _ _ _ _ _ F) in Ho. by injection Ho as <-.
  Qed.
  Lemma eff_vault_amount : tok_amount w (y_vault p) = t_amount vt /\ tok_amount w' (y_vault p) = t_amount vt - n.1.
  Proof. split; [exact (tok_token _ _ _ (ef_vault _ _ _ _ _ _ _ _ F))|exact (tok_token _ _ _ (ef_vault' _ _ _ _ _ _ _ _ F))]. Qed.
  Lemma eff_dest_amount : tok_amount w (y_dest p) = t_amount dt /\ tok_amount w' (y_dest p) = t_amount dt + n.2.
  Proof.
    split; [|exact (tok_token _ _ _ (ef_dest' _ _ _ _ _ _ _ _ F))].
    destruct (ef_dest _ _ _ _ _ _ _ _ F) as [Hd|[Hd ->]]; [exact (tok_token _ _ _ Hd)|exact (tok_none _ _ Hd)].
  Qed.
  Lemma eff_tok_other k : k <> y_vault p -> k <> y_dest p -> tok_amount w' k = tok_amount w k.
  Proof.
    intros H1 H2. destruct (decide (k = y_own p)) as [->|H3].
    - pose proof (ef_own_step _ _ _ _ _ _ _ _ F) as Hs.
      rewrite (tok_plain _ _ _ (ef_own _ _ _ _ _ _ _ _ F)), (tok_plain _ _ _ (ef_own' _ _ _ _ _ _ _ _ F)); [done| |].
      + destruct o; try done; [destruct Hs as [? ->]|rewrite Hs]; done.
      + destruct o; done.
    - destruct (decide (k ∈ y_new p)) as [H4|H4].
      + rewrite (tok_none _ _ (ef_new _ _ _ _ _ _ _ _ F _ H4)). by rewrite (tok_plain _ _ _ (ef_new' _ _ _ _ _ _ _ _ F _ H4)).
      + apply tok_same. by apply (ef_other _ _ _ _ _ _ _ _ F).
  Qed.
  Lemma eff_tok_le k : k <> y_dest p -> tok_amount w' k <= tok_amount w k.
  Proof.
    intros Hk. destruct (decide (k = y_vault p)) as [->|Hv]; [|rewrite (eff_tok_other _ Hv Hk); lia].
    destruct eff_vault_amount as [-> ->]. pose proof (ef_amount _ _ _ _ _ _ _ _ F). lia.
  Qed.
  Lemma eff_tok_ge k : k <> y_vault p -> tok_amount w k <= tok_amount w' k.
  Proof.
    intros Hk. destruct (decide (k = y_dest p)) as [->|Hv]; [|rewrite (eff_tok_other _ Hk Hv); lia].
    destruct eff_dest_amount as [-> ->]. pose proof (ef_amount _ _ _ _ _ _ _ _ F). lia.
  Qed.
  (** Data is never removed. *)
  Lemma eff_keeps k : wdat w' !! k = None -> wdat w !! k = None.
  Proof.
    intros Hn. rewrite <-Hn. symmetry. apply (ef_other _ _ _ _ _ _ _ _ F); intros He.
    - subst k. by rewrite (ef_vault' _ _ _ _ _ _ _ _ F) in Hn.
    - subst k. by rewrite (ef_dest' _ _ _ _ _ _ _ _ F) in Hn.
    - subst k. by rewrite (ef_own' _ _ _ _ _ _ _ _ F) in Hn.
    - by rewrite (ef_new' _ _ _ _ _ _ _ _ F _ He) in Hn.
  Qed.
  (** What a payout leaves of an account that existed. *)
  Lemma eff_kept k d : wdat w !! k = Some d ->
    match d with
    | DToken t => wdat w' !! k = Some (DToken (with_amount t (tok_amount w' k)))
    | DCampaign c => wdat w' !! k = Some (DCampaign c) \/ (k = y_own p /\ wdat w' !! k = Some (DCampaign (campaign_claim c (get_current_time w))))
    | DStream _ => k = y_own p \/ wdat w' !! k = wdat w !! k
    | _ => wdat w' !! k = wdat w !! k
    end.
  Proof.
    intros Hk.
    assert (k ∉ y_new p) as Hnn by (intros Hin; by rewrite (ef_new _ _ _ _ _ _ _ _ F _ Hin) in Hk).
    destruct (decide (k = y_vault p)) as [->|Hv].
    { rewrite (ef_vault _ _ _ _ _ _ _ _ F) in Hk. injection Hk as <-. rewrite (proj2 eff_vault_amount). exact (ef_vault' _ _ _ _ _ _ _ _ F). }
    destruct (decide (k = y_dest p)) as [->|Hd].
    { destruct (ef_dest _ _ _ _ _ _ _ _ F) as [Hx|[Hx _]]; rewrite Hx in Hk; [|done]. injection Hk as <-.
      rewrite (proj2 eff_dest_amount). exact (ef_dest' _ _ _ _ _ _ _ _ F). }
    destruct (decide (k = y_own p)) as [->|Ho].
    { rewrite (ef_own _ _ _ _ _ _ _ _ F) in Hk. injection Hk as <-. pose proof (ef_own_step _ _ _ _ _ _ _ _ F) as Hs.
      destruct o; try done; [by left|]. right. split; [done|]. rewrite <-Hs. exact (ef_own' _ _ _ _ _ _ _ _ F). }
    pose proof (ef_other _ _ _ _ _ _ _ _ F k Hv Hd Ho Hnn) as He. destruct d; try done.
    - by right.
    - left. by rewrite He.
    - rewrite (eff_tok_other k Hv Hd), (tok_token _ _ _ Hk), He, Hk. by rewrite with_amount_id.
  Qed.

  (** Seen from another payout, this one only shifts amounts. *)
  Lemma eff_shift S lc :
    (forall k, k ∈ S -> k ∉ y_new p) -> (y_dest p ∈ S -> wdat w !! y_dest p <> None) ->
    (y_own p ∈ S -> lc = Some (y_own p) /\ exists c, o = DCampaign c) ->
    shifted S (fun k => lam w' k - lam w k) (fun k => tok_amount w' k - tok_amount w k) lc w w' /\
    shifted S (fun k => lam w k - lam w' k) (fun k => tok_amount w k - tok_amount w' k) lc w' w.
  Proof.
    intros H1 H2 H3.
    assert (forall k, k ∈ S -> wdat w !! k = None -> wdat w' !! k = None) as Hnone.
    { intros k Hk Hn. rewrite <-Hn. apply (ef_other _ _ _ _ _ _ _ _ F); [| | |by apply H1]; intros ->.
      - by rewrite (ef_vault _ _ _ _ _ _ _ _ F) in Hn.
      - by apply H2.
      - by rewrite (ef_own _ _ _ _ _ _ _ _ F) in Hn. }
    assert (forall k c, k ∈ S -> wdat w !! k = Some (DCampaign c) -> k = y_own p -> lc = Some k) as Hcamp.
    { intros k c Hk _ ->. by apply H3. }
    assert (forall k s, k ∈ S -> wdat w !! k = Some (DStream s) -> k <> y_own p) as Hst.
    { intros k s Hk Hd ->. destruct (H3 Hk) as [_ [c ->]]. rewrite (ef_own _ _ _ _ _ _ _ _ F) in Hd. done. }
    split; split; try (intros; lia); [exact (ef_clock _ _ _ _ _ _ _ _ F)| |symmetry; exact (ef_clock _ _ _ _ _ _ _ _ F)|];
      intros k Hk; destruct (wdat w !! k) as [d|] eqn:Hd.
    - pose proof (eff_kept k d Hd) as HK. destruct d; try (rewrite Hd in HK; exact HK).
      + destruct HK as [HK|HK]; [by destruct (Hst _ _ Hk Hd)|]. by rewrite HK, Hd.
      + unfold dshift. destruct HK as [HK|[Ho HK]]; rewrite HK.
        * destruct (decide _); [by eexists|done].
        * rewrite decide_True by exact (Hcamp _ _ Hk Hd Ho). eexists. split; [done|]. apply campaign_claim_twice.
      + unfold dshift. rewrite HK, (tok_token _ _ _ Hd). do 3 f_equal. lia.
    - by rewrite (Hnone k Hk Hd).
    - pose proof (eff_kept k d Hd) as HK. rewrite eff_time. destruct d; try (rewrite Hd in HK; rewrite HK; reflexivity).
      + destruct HK as [HK|HK]; [by destruct (Hst _ _ Hk Hd)|]. by rewrite HK, Hd.
      + unfold dshift. destruct HK as [HK|[Ho HK]]; rewrite HK.
        * destruct (decide _); [by eexists|done].
        * rewrite decide_True by exact (Hcamp _ _ Hk Hd Ho). eexists. split; [done|]. by rewrite campaign_claim_twice.
      + unfold dshift. rewrite HK, (tok_token _ _ _ Hd), with_amount_twice. do 2 f_equal. symmetry. apply with_amount_id.
        rewrite (tok_token _ _ _ HK). simpl. lia.
    - by rewrite (Hnone k Hk Hd).
  Qed.
End eff.

(** [run] does the same in a shifted world, as long as the balances suffice. *)
Definition shiftable (p : roles) (lc : option key) (good : world -> Prop) (run : world -> res (world * list event)) : Prop :=
  forall x y e xs fl ft, run x = Ok (y, e) -> good x -> shifted (acct p) fl ft lc x xs ->
    (forall k, k ∈ y_new p -> fl k = 0) -> (wdat x !! y_dest p = None -> fl (y_dest p) = 0 /\ ft (y_dest p) = 0) ->
    (forall k, k ∈ y_nft p -> ft k = 0) ->
    0 <= lam y (y_payer p) + fl (y_payer p) ->
    0 <= tok_amount y (y_vault p) + ft (y_vault p) -> tok_amount y (y_dest p) + ft (y_dest p) <= U64_MAX ->
    exists ys, run xs = Ok (ys, e) /\ shifted (acct p) fl ft None y ys.

Ltac mm := unfold acct;
  match goal with
  | H : ?k ∈ ?l |- ?k ∈ ?l => exact H
  | |- ?k ∈ ?k :: _ => apply elem_of_list_here
  | |- ?k ∈ _ :: _ => apply elem_of_list_further; mm
  | |- ?k ∈ _ ++ _ => apply elem_of_app; first [left; mm | right; mm]
  end.
(** Two payouts in a row, seen through their effects. *)
Section commute.
  Context (p q : roles) (lp lq : option key) (gp gq : world -> Prop) (runp runq : world -> res (world * list event)).
  Context (Sp : shiftable p lp gp runp) (Sq : shiftable q lq gq runq).
  Context (Ep : forall x y e, gp x -> runp x = Ok (y, e) -> has_eff p x y).
  Context (Eq : forall x y e, gq x -> runq x = Ok (y, e) -> has_eff q x y).
  Context (w w1 w12 : world) (e1 e2 : list event).
  Context (R1 : runp w = Ok (w1, e1)) (R2 : runq w1 = Ok (w12, e2)) (G1 : gp w) (G2 : gq w1) (G3 : gq w) (G4 : forall x y e, gq x -> runq x = Ok (y, e) -> gp x -> gp y).
  (* the payers are no account created or changed by a payout *)
  Context (Wp : forall k, k ∈ y_dest q :: y_vault q :: y_own q :: y_treas q ++ y_new q -> k <> y_payer p).
  Context (Wq : forall k, k ∈ y_dest p :: y_vault p :: y_own p :: y_treas p ++ y_new p -> k <> y_payer q).
  Context (Op : y_owner p <> y_own q) (Oq : y_owner q <> y_own p).
  Context (Np : forall k, k ∈ y_nft p -> k <> y_dest q /\ k <> y_vault q) (Nq : forall k, k ∈ y_nft q -> k <> y_dest p /\ k <> y_vault p).
  Context (D : y_dest p = y_dest q -> wdat w !! y_dest p <> None).
  Context (C : y_own p = y_own q -> lp = Some (y_own p) /\ lq = Some (y_own q) /\ exists c, wdat w !! y_own p = Some (DCampaign c)).
  Context (Bp : 0 <= lam w (y_payer p)) (Bq : 0 <= lam w (y_payer q)).

  Lemma payouts_commute : exists w2 w21, runq w = Ok (w2, e2) /\ runp w2 = Ok (w21, e1) /\ same_world w12 w21.
  Proof.
    destruct (Ep _ _ _ G1 R1) as (vtp & dtp & np & op & op' & P).
    destruct (Eq _ _ _ G2 R2) as (vtq & dtq & nq & oq & oq' & Q).
    (* the kinds of the accounts in w1 *)
    pose proof (ef_vault' _ _ _ _ _ _ _ _ P) as PV. pose proof (ef_dest' _ _ _ _ _ _ _ _ P) as PD.
    pose proof (ef_own' _ _ _ _ _ _ _ _ P) as PO. pose proof (ef_new' _ _ _ _ _ _ _ _ P) as PN.
    pose proof (ef_vault _ _ _ _ _ _ _ _ Q) as QV. pose proof (ef_dest _ _ _ _ _ _ _ _ Q) as QD.
    pose proof (ef_own _ _ _ _ _ _ _ _ Q) as QO. pose proof (ef_new _ _ _ _ _ _ _ _ Q) as QN.
    pose proof (ef_plain _ _ _ _ _ _ _ _ Q) as QP. pose proof (ef_nft _ _ _ _ _ _ _ _ Q) as QT.
    assert (forall k, k ∈ y_treas p ++ y_ro p -> exists d, wdat w1 !! k = Some d /\ passive d) as PP.
    { intros k Hk. destruct (ef_plain _ _ _ _ _ _ _ _ P k Hk) as (d & Hd & Hp). exists d. split; [|done].
      pose proof (eff_kept P k d Hd) as HK. destruct d; try done; by rewrite HK. }
    assert (forall k, k ∈ y_nft p -> exists t, wdat w1 !! k = Some (DToken t)) as PT.
    { intros k Hk. destruct (ef_nft _ _ _ _ _ _ _ _ P k Hk) as (t & Ht). eexists. exact (eff_kept P k _ Ht). }
    assert (match op' with DStream _ | DCampaign _ => True | _ => False end) as PK.
    { pose proof (ef_own_step _ _ _ _ _ _ _ _ P) as Hs. unfold own_step in Hs. destruct op; try done; [destruct Hs as [? ->]|rewrite Hs]; done. }
    assert (match oq with DStream _ | DCampaign _ => True | _ => False end) as QK.
    { pose proof (ef_own_step _ _ _ _ _ _ _ _ Q) as Hs. unfold own_step in Hs. by destruct oq. }
    unfold dest_before in QD.
    (* disjointness *)
    assert (forall k, k ∈ acct q -> k ∉ y_new p) as DN1.
    { intros k Hk Hn. pose proof (PN _ Hn) as Hr. unfold acct in Hk. rewrite !elem_of_cons, !elem_of_app in Hk.
      destruct Hk as [->|[->|[->|[->|[Hk|[Hk|[Hk|Hk]]]]]]].
      - apply (Wq (y_payer q)); [|done]. mm.
      - destruct QD as [Hd|[Hd _]]; rewrite Hr in Hd; done.
      - rewrite Hr in QV. done.
      - rewrite Hr in QO. injection QO as <-. done.
      - destruct (QP k) as (d & Hd & Hp); [mm|]. rewrite Hr in Hd. injection Hd as <-. done.
      - destruct (QP k) as (d & Hd & Hp); [mm|]. rewrite Hr in Hd. injection Hd as <-. done.
      - destruct (QT k Hk) as (t & Hd). rewrite Hr in Hd. done.
      - rewrite (QN k Hk) in Hr. done. }
    assert (forall k, k ∈ acct p -> k ∉ y_new q) as DN2.
    { intros k Hk Hn. pose proof (QN _ Hn) as Hr. unfold acct in Hk. rewrite !elem_of_cons, !elem_of_app in Hk.
      destruct Hk as [->|[->|[->|[->|[Hk|[Hk|[Hk|Hk]]]]]]].
      - apply (Wp (y_payer p)); [|done]. mm.
      - rewrite Hr in PD. done.
      - rewrite Hr in PV. done.
      - rewrite Hr in PO. done.
      - destruct (PP k) as (d & Hd & Hp); [mm|]. rewrite Hr in Hd. done.
      - destruct (PP k) as (d & Hd & Hp); [mm|]. rewrite Hr in Hd. done.
      - destruct (PT k Hk) as (t & Hd). rewrite Hr in Hd. done.
      - rewrite (PN k Hk) in Hr. done. }
    assert (y_dest p <> y_vault q) as DV1.
    { intros He. rewrite He, QV in PD. injection PD as Hx. apply Op. rewrite <-(ef_dest_owner _ _ _ _ _ _ _ _ P), <-(ef_vault_owner _ _ _ _ _ _ _ _ Q), Hx. done. }
    assert (y_dest q <> y_vault p) as DV2.
    { intros He. rewrite He in QD. destruct QD as [Hd|[Hd _]]; rewrite PV in Hd; [|done]. injection Hd as Hx.
      apply Oq. rewrite <-(ef_dest_owner _ _ _ _ _ _ _ _ Q), <-(ef_vault_owner _ _ _ _ _ _ _ _ P), <-Hx. done. }
    assert (y_dest p ∈ acct q -> y_dest p = y_dest q) as DD1.
    { intros Hk. unfold acct in Hk. rewrite !elem_of_cons, !elem_of_app in Hk.
      destruct Hk as [Hk|[Hk|[Hk|[Hk|[Hk|[Hk|[Hk|Hk]]]]]]]; try done.
      - destruct (Wq (y_dest p)); [mm|done].
      - rewrite Hk, QO in PD. injection PD as ->. done.
      - destruct (QP (y_dest p)) as (d & Hd & Hp); [mm|]. rewrite PD in Hd. injection Hd as <-. done.
      - destruct (QP (y_dest p)) as (d & Hd & Hp); [mm|]. rewrite PD in Hd. injection Hd as <-. done.
      - destruct (Nq _ Hk). done.
      - rewrite (QN _ Hk) in PD. done. }
    assert (y_dest q ∈ acct p -> y_dest p = y_dest q \/ wdat w !! y_dest q <> None) as DD2.
    { intros Hk. unfold acct in Hk. rewrite !elem_of_cons, !elem_of_app in Hk.
      destruct Hk as [Hk|[Hk|[Hk|[Hk|[Hk|[Hk|[Hk|Hk]]]]]]]; try (by left); try done.
      - destruct (Wp (y_dest q)); [mm|done].
      - right. rewrite Hk, (ef_own _ _ _ _ _ _ _ _ P). done.
      - right. destruct (ef_plain _ _ _ _ _ _ _ _ P (y_dest q)) as (d & -> & Hp); [mm|done].
      - right. destruct (ef_plain _ _ _ _ _ _ _ _ P (y_dest q)) as (d & -> & Hp); [mm|done].
      - destruct (Np _ Hk). done.
      - rewrite (PN _ Hk) in QD. destruct QD as [?|[? _]]; done. }
    assert (y_own p ∈ acct q -> y_own p = y_own q) as DO1.
    { intros Hk. unfold acct in Hk. rewrite !elem_of_cons, !elem_of_app in Hk.
      destruct Hk as [Hk|[Hk|[Hk|[Hk|[Hk|[Hk|[Hk|Hk]]]]]]]; try done.
      - destruct (Wq (y_own p)); [mm|done].
      - rewrite Hk in PO. destruct QD as [Hd|[Hd _]]; rewrite PO in Hd; [injection Hd as ->|]; done.
      - rewrite Hk, QV in PO. injection PO as <-. done.
      - destruct (QP (y_own p)) as (d & Hd & Hp); [mm|]. rewrite PO in Hd. injection Hd as <-. by destruct op'.
      - destruct (QP (y_own p)) as (d & Hd & Hp); [mm|]. rewrite PO in Hd. injection Hd as <-. by destruct op'.
      - destruct (QT _ Hk) as (t & Hd). rewrite PO in Hd. injection Hd as ->. done.
      - rewrite (QN _ Hk) in PO. done. }
    assert (y_own q ∈ acct p -> y_own p = y_own q) as DO2.
    { intros Hk. unfold acct in Hk. rewrite !elem_of_cons, !elem_of_app in Hk.
      destruct Hk as [Hk|[Hk|[Hk|[Hk|[Hk|[Hk|[Hk|Hk]]]]]]]; try done.
      - destruct (Wp (y_own q)); [mm|done].
      - rewrite Hk, PD in QO. injection QO as <-. done.
      - rewrite Hk, PV in QO. injection QO as <-. done.
      - destruct (PP (y_own q)) as (d & Hd & Hp); [mm|]. rewrite QO in Hd. injection Hd as <-. by destruct oq.
      - destruct (PP (y_own q)) as (d & Hd & Hp); [mm|]. rewrite QO in Hd. injection Hd as <-. by destruct oq.
      - destruct (PT _ Hk) as (t & Hd). rewrite QO in Hd. injection Hd as ->. done.
      - rewrite (PN _ Hk) in QO. injection QO as <-. done. }
    (* A: the second payout in w *)
    destruct (eff_shift P (acct q) lq) as [_ ShA]; [exact DN1| | |].
    { intros Hk. exact (D (DD1 Hk)). }
    { intros Hk. pose proof (DO1 Hk) as He. destruct (C He) as (_ & Hl & c & Hc). rewrite He. split; [done|]. exists c.
      rewrite (ef_own _ _ _ _ _ _ _ _ P) in Hc. by injection Hc. }
    assert (forall k, k ∈ y_new q -> lam w1 k = lam w k) as LNq.
    { intros k Hk. apply (ef_lam _ _ _ _ _ _ _ _ P); [..|].
      - intros ->. apply (Wp (y_payer p)); [mm|done].
      - intros ->. apply (DN2 (y_dest p)); [mm|done].
      - intros Ht. apply (DN2 k); [mm|done].
      - intros Ht. apply (DN2 k); [mm|done]. }
    assert (wdat w1 !! y_dest q = None -> lam w1 (y_dest q) = lam w (y_dest q)) as LDq.
    { intros Hn. apply (ef_lam _ _ _ _ _ _ _ _ P).
      - apply Wp. mm.
      - intros He. rewrite He, PD in Hn. done.
      - intros Ht. destruct (PP (y_dest q)) as (d & Hd & _); [mm|]. rewrite Hn in Hd. done.
      - intros Ht. rewrite (PN _ Ht) in Hn. done. }
    assert (y_payer q <> y_payer p -> lam w1 (y_payer q) = lam w (y_payer q)) as LPq.
    { intros Hn. apply (ef_lam _ _ _ _ _ _ _ _ P); [done|..].
      - intros He. destruct (Wq (y_dest p)); [mm|done].
      - intros He. destruct (Wq (y_payer q)); [mm|done].
      - intros He. destruct (Wq (y_payer q)); [mm|done]. }
    pose proof (ef_payer _ _ _ _ _ _ _ _ P) as PL. pose proof (ef_floor _ _ _ _ _ _ _ _ P) as PF.
    pose proof (ef_payer _ _ _ _ _ _ _ _ Q) as QL. pose proof (ef_floor _ _ _ _ _ _ _ _ Q) as QF.
    destruct (eff_vault_amount P) as [PV0 PV1]. destruct (eff_vault_amount Q) as [QV0 QV1].
    destruct (eff_dest_amount P) as [PD0 PD1]. destruct (eff_dest_amount Q) as [QD0 QD1].
    pose proof (ef_amount _ _ _ _ _ _ _ _ P) as PA. pose proof (ef_amount _ _ _ _ _ _ _ _ Q) as QA.
    pose proof (ef_room _ _ _ _ _ _ _ _ P) as PR. pose proof (ef_room _ _ _ _ _ _ _ _ Q) as QR.
    destruct (Sq _ _ _ _ _ _ R2 G2 ShA) as (w2 & R2' & ShA').
    { intros k Hk. rewrite (LNq k Hk). lia. }
    { intros Hn. rewrite (LDq Hn), (tok_none _ _ Hn), (tok_none _ _ (eff_keeps P _ Hn)). lia. }
    { intros k Hk. destruct (Nq k Hk). rewrite (eff_tok_other P k) by done. lia. }
    { destruct (decide (y_payer q = y_payer p)) as [He|Hn]; [rewrite He in *; lia|]. rewrite (LPq Hn) in *. lia. }
    { pose proof (eff_tok_le P (y_vault q) (not_eq_sym DV1)). lia. }
    { pose proof (eff_tok_ge P (y_dest q) DV2). lia. }
    destruct (Eq _ _ _ G3 R2') as (vt2 & dt2 & n2 & o2 & o2' & Q2).
    (* B: the first payout in w2 *)
    destruct (eff_shift Q2 (acct p) lp) as [ShB _]; [exact DN2| | |].
    { intros Hk. destruct (DD2 Hk) as [He|Hn]; [|done]. rewrite <-He. by apply D. }
    { intros Hk. pose proof (DO2 Hk) as He. destruct (C He) as (Hl & _ & c & Hc). split; [congruence|]. exists c.
      pose proof (ef_own _ _ _ _ _ _ _ _ Q2) as Ho. rewrite <-He, Hc in Ho. by injection Ho. }
    assert (forall k, k ∈ y_new p -> lam w2 k = lam w k) as LNp.
    { intros k Hk. apply (ef_lam _ _ _ _ _ _ _ _ Q2); [..|].
      - intros ->. apply (Wq (y_payer q)); [mm|done].
      - intros ->. apply (DN1 (y_dest q)); [mm|done].
      - intros Ht. apply (DN1 k); [mm|done].
      - intros Ht. apply (DN1 k); [mm|done]. }
    assert (wdat w !! y_dest p = None -> lam w2 (y_dest p) = lam w (y_dest p)) as LDp.
    { intros Hn. apply (ef_lam _ _ _ _ _ _ _ _ Q2).
      - apply Wq. mm.
      - intros He. by apply (D He).
      - intros Ht. destruct (ef_plain _ _ _ _ _ _ _ _ Q2 (y_dest p)) as (d & Hd & _); [mm|]. rewrite Hn in Hd. done.
      - apply DN2. mm. }
    assert (y_payer q <> y_payer p -> lam w2 (y_payer p) = lam w (y_payer p)) as LPp.
    { intros Hn. apply (ef_lam _ _ _ _ _ _ _ _ Q2); [done|..].
      - intros He. destruct (Wp (y_dest q)); [mm|done].
      - intros He. destruct (Wp (y_payer p)); [mm|done].
      - intros He. destruct (Wp (y_payer p)); [mm|done]. }
    assert (forall k, k ∈ acct q -> (exists t, wdat w12 !! k = Some (DToken t)) ->
      tok_amount w2 k = tok_amount w12 k + (tok_amount w k - tok_amount w1 k)) as TA.
    { intros k Hk [t Ht]. pose proof (sh_dat _ _ _ _ _ _ ShA' k Hk) as Hd. rewrite Ht in Hd.
      unfold dshift in Hd. rewrite (tok_token _ _ _ Hd), (tok_token _ _ _ Ht). done. }
    assert (y_vault q ∈ acct q /\ y_dest q ∈ acct q /\ y_payer q ∈ acct q) as (IV & ID & IP) by (split_and!; mm).
    destruct (Sp _ _ _ _ _ _ R1 G1 ShB) as (w21 & R1' & ShB').
    { intros k Hk. rewrite (LNp k Hk). lia. }
    { intros Hn. rewrite (LDp Hn). split; [lia|]. rewrite (tok_none _ _ Hn), (eff_tok_other Q2); [rewrite (tok_none _ _ Hn); lia|done|].
      intros He. by apply (D He). }
    { intros k Hk. destruct (Np k Hk). rewrite (eff_tok_other Q2 k) by done. lia. }
    { destruct (decide (y_payer q = y_payer p)) as [He|Hn]; [|rewrite (LPp Hn); lia].
      pose proof (sh_lam _ _ _ _ _ _ ShA' _ IP) as Hl. rewrite He in *. lia. }
    { destruct (decide (y_vault p = y_vault q)) as [He|Hn].
      - pose proof (TA _ IV ltac:(eexists; exact (ef_vault' _ _ _ _ _ _ _ _ Q))) as Hl. rewrite He in *. lia.
      - pose proof (eff_tok_ge Q2 (y_vault p) Hn). lia. }
    { destruct (decide (y_dest p = y_dest q)) as [He|Hn].
      - pose proof (TA _ ID ltac:(eexists; exact (ef_dest' _ _ _ _ _ _ _ _ Q))) as Hl. rewrite He in *. lia.
      - pose proof (eff_tok_le Q2 (y_dest p) Hn). lia. }
    exists w2, w21. split; [done|]. split; [done|].
    (* the worlds are the same *)
    split. { rewrite (sh_clock _ _ _ _ _ _ ShB'), (ef_clock _ _ _ _ _ _ _ _ Q). done. }
    destruct (Ep _ _ _ (G4 _ _ _ G3 R2' G1) R1') as (vt3 & dt3 & n3 & o3 & o3' & P2).
    assert (forall r x y vt dt n o o' k, pay_eff r x y vt dt n o o' -> k ∉ acct r -> wdat y !! k = wdat x !! k /\ lam y k = lam x k) as Out.
    { intros r x y vt dt n o o' k X Hk.
      assert (k <> y_payer r /\ k <> y_dest r /\ k <> y_vault r /\ k <> y_own r /\ k ∉ y_treas r /\ k ∉ y_new r) as (K1 & K2 & K3 & K4 & K5 & K6).
      { split_and!; try (intros ->; apply Hk; mm); intros Hi; apply Hk; mm. }
      split; [by apply (ef_other _ _ _ _ _ _ _ _ X)|by apply (ef_lam _ _ _ _ _ _ _ _ X)]. }
    assert (forall k, wdat w12 !! k = wdat w21 !! k /\ lam w12 k = lam w21 k) as Hall; [|split; intros k; apply Hall].
    intros k. destruct (decide (k ∈ acct p)) as [Ip|Xp], (decide (k ∈ acct q)) as [Iq|Xq].
    - pose proof (sh_lam _ _ _ _ _ _ ShA' k Iq) as L1. pose proof (sh_lam _ _ _ _ _ _ ShB' k Ip) as L2. cbn beta in *. split; [|lia].
      pose proof (sh_dat _ _ _ _ _ _ ShB' k Ip) as H2. destruct (wdat w1 !! k) as [d|] eqn:Hd.
      + pose proof (eff_kept Q k d Hd) as HK. unfold dshift in H2. destruct d; try (rewrite HK, H2; exact Hd); [| |].
        * destruct HK as [He|HK]; [|rewrite HK, H2; exact Hd]. subst k. pose proof (DO2 Ip) as He.
          destruct (C He) as (_ & _ & c & Hc). rewrite <-He in Hd. destruct (eff_kept P _ _ Hc) as [HK|[_ HK]]; rewrite HK in Hd; done.
        * rewrite decide_False in H2 by done. rewrite H2. destruct HK as [HK|[He HK]]; [done|]. subst k. pose proof (DO2 Ip) as He.
          destruct (C He) as (_ & _ & c' & Hc). pose proof (ef_own' _ _ _ _ _ _ _ _ P) as Ho. pose proof (ef_own_step _ _ _ _ _ _ _ _ P) as Hs.
          rewrite (ef_own _ _ _ _ _ _ _ _ P) in Hc. injection Hc as ->. cbn in Hs. subst op'. rewrite He, Hd in Ho. injection Ho as ->.
          rewrite HK, (eff_time P), campaign_claim_twice. done.
        * pose proof (TA k Iq ltac:(eexists; exact HK)) as Ht. rewrite H2, HK. do 3 f_equal. rewrite (tok_token _ _ _ Hd) in Ht. lia.
      + rewrite H2. destruct (wdat w12 !! k) as [d|] eqn:Hd'; [|done]. exfalso.
        assert (k <> y_vault q /\ k <> y_own q) as [K1 K2] by (split; intros ->; [rewrite QV in Hd|rewrite QO in Hd]; done).
        assert (k ∉ y_new q) as K3 by (by apply DN2).
        destruct (decide (k = y_dest q)) as [->|K4].
        * destruct (DD2 Ip) as [He|Hn]; [rewrite <-He, PD in Hd; done|]. apply Hn. exact (eff_keeps P _ Hd).
        * rewrite (ef_other _ _ _ _ _ _ _ _ Q k K1 K4 K2 K3), Hd in Hd'. done.
    - destruct (Out _ _ _ _ _ _ _ _ k Q Xq) as [A1 A2]. destruct (Out _ _ _ _ _ _ _ _ k Q2 Xq) as [A3 A4].
      pose proof (sh_lam _ _ _ _ _ _ ShB' k Ip) as L2. cbn beta in *. split; [|lia].
      pose proof (sh_dat _ _ _ _ _ _ ShB' k Ip) as H2. cbn beta in H2. rewrite (tok_same _ _ _ A3), Z.sub_diag in H2. rewrite A1. unfold dshift in H2.
      destruct (wdat w1 !! k) as [[]|]; try (rewrite H2; done); [].
      rewrite H2, Z.add_0_r, with_amount_id; done.
    - destruct (Out _ _ _ _ _ _ _ _ k P Xp) as [A1 A2]. destruct (Out _ _ _ _ _ _ _ _ k P2 Xp) as [A3 A4].
      pose proof (sh_lam _ _ _ _ _ _ ShA' k Iq) as L2. cbn beta in *. split; [|lia].
      pose proof (sh_dat _ _ _ _ _ _ ShA' k Iq) as H2. cbn beta in H2. rewrite (tok_same _ _ _ A1), Z.sub_diag in H2. rewrite A3. unfold dshift in H2.
      destruct (wdat w12 !! k) as [[]|]; try (rewrite H2; done); [].
      rewrite H2, Z.add_0_r, with_amount_id; done.
    - destruct (Out _ _ _ _ _ _ _ _ k P Xp) as [A1 A2]. destruct (Out _ _ _ _ _ _ _ _ k P2 Xp) as [A3 A4].
      destruct (Out _ _ _ _ _ _ _ _ k Q Xq) as [A5 A6]. destruct (Out _ _ _ _ _ _ _ _ k Q2 Xq) as [A7 A8].
      split; congruence.
  Qed.
End commute.

(** ** The payout instructions *)
(** Not an address derived by a program: a wallet. *)
Definition wallet (E : env) (k : key) : Prop := forall p, pda_of E p k = false.
Definition is_feed (w : world) (k : key) : Prop := exists o r d, wdat w !! k = Some (DFeed o r d).

Definition claim_roles (a : claim_accs) : roles :=
  Roles (la_claimer a) (la_recipient a) (la_recipient_ata a) (la_vault a) (la_campaign a) [la_treasury a] [la_mint a; la_feed a] [] [la_receipt a].
Definition withdraw_roles (a : withdraw_accs) : roles :=
  Roles (wa_signer a) (wa_withdrawal_recipient a) (wa_dest a) (wa_vault a) (wa_stream a) [wa_treasury a]
    [wa_mint a; wa_nft_mint a; wa_feed a] [wa_nft_ata a] [].
Definition cancel_roles (a : cancel_accs) : roles :=
  Roles (xa_sender a) (xa_sender a) (xa_sender_ata a) (xa_vault a) (xa_stream a) [] [xa_mint a; xa_nft_mint a] [] [].

Lemma wallet_ne E k k' p : wallet E k -> pda_of E p k' = true -> k' <> k.
Proof. intros H H' ->. rewrite (H p) in H'. done. Qed.
Lemma rent_due_nonneg E w k sp : env_ok E -> 0 <= rent_due E w k sp.
Proof. intros HE. unfold rent_due. destruct (wdat w !! k); [done|]. destruct (_ =? 0); [apply (eo_rent _ HE)|lia]. Qed.
Lemma net1_payer p t r : p <> t -> net [(p, t, r)] p = - r.
Proof. intros H. simpl. rewrite (proj2 (Z.eqb_neq p t)), Z.eqb_refl by done. lia. Qed.
Lemma net1_other p t r k : k <> p -> k <> t -> net [(p, t, r)] k = 0.
Proof. intros H H'. simpl. by rewrite (proj2 (Z.eqb_neq k t)), (proj2 (Z.eqb_neq k p)). Qed.
(** Paying never leaves a negative balance behind. *)
Lemma transfer_floor f t n w w' : f <> t -> 0 <= n -> system_transfer f t n w = Ok w' -> 0 <= lam w' f.
Proof. intros Hne Hn H. apply system_transfer_ok in H as (_ & _ & ? & H & _); [|done]. destruct (H Hne). lia. Qed.
Lemma init_floor E p k sp d w w' : env_ok E -> p <> k -> init_account E p k sp d w = Ok w' -> lam w' p = lam w p \/ 0 <= lam w' p.
Proof.
  intros HE Hne. unfold init_account. destruct (wdat w !! k) eqn:Hk; [discriminate|]. intros H. inv_all H. injection H as <-.
  rewrite lam_set_dat. set (need := if lam w k =? 0 then _ else _) in *. destruct (Z.ltb_spec 0 need).
  - right. eapply transfer_floor; [exact Hne| |exact He0]. lia.
  - injection He0 as <-. by left.
Qed.
Lemma ata_floor E p k o m tp w w' : env_ok E -> p <> k -> init_ata_if_needed E p k o m tp w = Ok w' -> lam w' p = lam w p \/ 0 <= lam w' p.
Proof.
  intros HE Hne. unfold init_ata_if_needed. destruct (wdat w !! k) as [[]|]; try discriminate; intros H; [inv_all H; injection H as <-; by left|].
  unfold create_ata in H. inv_all H. exact (init_floor _ _ _ _ _ _ _ HE Hne H).
Qed.
Lemma fee_floor fee_usd pr fd p t w w' fee : p <> t -> charge_fee fee_usd pr fd p t w = Ok (w', fee) -> lam w' p = lam w p \/ 0 <= lam w' p.
Proof.
  intros Hne. unfold charge_fee. intros H. inv_all H. destruct (Z.ltb_spec 0 x); [|injection H as <- <-; by left].
  inv_all H. injection H as <- <-. right. eapply transfer_floor; [exact Hne| |exact He0]. lia.
Qed.

(** Creating an account leaves the others and costs the payer. *)
Lemma init_keeps E p k sp d w w' k' d' : init_account E p k sp d w = Ok w' -> wdat w !! k' = Some d' -> wdat w' !! k' = Some d'.
Proof.
  intros H Hk. apply init_account_ok in H as (Hn & _ & Hs & _). rewrite (ds_dat _ _ _ Hs).
  rewrite lookup_insert_ne; [done|]. intros ->. rewrite Hk in Hn. done.
Qed.
Lemma ata_keeps E p k o m tp w w' k' d' : init_ata_if_needed E p k o m tp w = Ok w' -> wdat w !! k' = Some d' -> wdat w' !! k' = Some d'.
Proof.
  unfold init_ata_if_needed. destruct (wdat w !! k) as [[]|]; try discriminate; intros H Hk; [inv_all H; by injection H as <-|].
  unfold create_ata in H. inv_all H. by eapply init_keeps.
Qed.
Lemma init_payer E p k sp d w w' : env_ok E -> p <> k -> init_account E p k sp d w = Ok w' -> lam w' p <= lam w p.
Proof.
  intros HE Hne H. rewrite (init_account_net _ _ _ _ _ _ _ p (eo_rent _ HE _) H), net1_payer by done.
  pose proof (rent_due_nonneg E w k sp HE). lia.
Qed.
Lemma ata_payer E p k o m tp w w' : env_ok E -> p <> k -> init_ata_if_needed E p k o m tp w = Ok w' -> lam w' p <= lam w p.
Proof.
  intros HE Hne H. rewrite (init_ata_net _ _ _ _ _ _ _ _ p (eo_rent _ HE) H), net1_payer by done.
  pose proof (rent_due_nonneg E w k (ata_space E m tp) HE). lia.
Qed.
Lemma fee_payer fee_usd pr fd p t w w' fee : p <> t -> charge_fee fee_usd pr fd p t w = Ok (w', fee) -> lam w' p <= lam w p.
Proof.
  intros Hne. unfold charge_fee. intros H. inv_all H. destruct (Z.ltb_spec 0 x) as [Hx|]; [|injection H as <- <-; done].
  inv_all H. injection H as <- <-. rewrite (system_transfer_net _ _ _ _ _ p (Z.lt_le_incl _ _ Hx) He0), net1_payer by done. lia.
Qed.
Lemma check_ata_amount E k t z o m tp : check_ata E k (with_amount t z) o m tp = check_ata E k t o m tp.
Proof. done. Qed.
Lemma claim_same_fields c c' now : campaign_claim c' now = campaign_claim c now ->
  c_mint c' = c_mint c /\ c_bump c' = c_bump c /\ c_start c' = c_start c /\ c_creator c' = c_creator c /\
  c_expiration c' = c_expiration c /\ c_root c' = c_root c /\ c_name c' = c_name c.
Proof.
  unfold campaign_claim. destruct (c_first_claim c' =? 0), (c_first_claim c =? 0); intros H; [by injection H|..]; subst; done.
Qed.

Section claims.
  Context (E : env) (HE : env_ok E) (sg : list key) (a : claim_accs) (index amount : Z) (proof : list bytes).
  Context (Wc : wallet E (la_claimer a)) (Wr : wallet E (la_recipient a)).
  Let run := exec E sg (IM (MClaim a index amount proof)).
  Lemma claim_pdas x y e : claim E sg a index amount proof x = Ok (y, e) ->
    pda_of E PMerkle (la_campaign a) = true /\ pda_of E PMerkle (la_treasury a) = true /\ pda_of E PMerkle (la_receipt a) = true /\
    pda_of E PAssocToken (la_vault a) = true /\ pda_of E PAssocToken (la_recipient_ata a) = true.
  Proof.
    intros H. apply claim_inv in H as (tr & m & c & vt & dt & fee & F).
    split; [exact (proj1 (cpa_pda _ _ _ _ _ HE (lf_seeds _ _ _ _ _ _ _ _ _ _ _ _ _ _ _ F)))|].
    split; [exact (proj1 (cpa_pda _ _ _ _ _ HE (lf_treasury_addr _ _ _ _ _ _ _ _ _ _ _ _ _ _ _ F)))|].
    split. { destruct (lf_receipt_addr _ _ _ _ _ _ _ _ _ _ _ _ _ _ _ F) as [b Hb]. exact (proj1 (fpa_pda _ _ _ _ _ HE Hb)). }
    split; [exact (proj1 (ata_pda _ _ _ _ _ HE (lf_vault_addr _ _ _ _ _ _ _ _ _ _ _ _ _ _ _ F)))|].
    exact (proj1 (ata_pda _ _ _ _ _ HE (pf_dest_addr _ _ _ _ _ _ _ _ _ _ _ _ _ _ _ (lf_pay _ _ _ _ _ _ _ _ _ _ _ _ _ _ _ F)))).
  Qed.
  Lemma claim_eff x y e : is_feed x (la_feed a) -> run x = Ok (y, e) -> has_eff (claim_roles a) x y.
  Proof.
    intros (fo & fr & fd & Hfeed) H. unfold run in H. cbn [exec] in H.
    destruct (C31_claim _ _ _ _ _ _ _ _ _ HE H) as (tr0 & fee0 & _ & _ & _ & _ & _ & Hlam & Hfee0 & _).
    unfold merkle_exec in H. apply rbind_ok in H as (u & Hok & H). apply ensure_ok in Hok. simpl in Hok.
    destruct (claim_pdas _ _ _ H) as (Pc & Pt & Pr & Pv & Pd).
    assert (la_campaign a <> la_claimer a /\ la_treasury a <> la_claimer a /\ la_receipt a <> la_claimer a /\ la_vault a <> la_claimer a /\ la_recipient_ata a <> la_claimer a)
      as (N1 & N2 & N3 & N4 & N5) by (split_and!; (eapply wallet_ne; [exact Wc|eassumption])).
    assert (la_campaign a <> la_recipient a) as N6 by (eapply wallet_ne; [exact Wr|exact Pc]).
    assert (lam y (la_claimer a) = lam x (la_claimer a) \/ 0 <= lam y (la_claimer a)) as Hfloor.
    { pose proof H as H0. unfold claim in H0. inv_all H0. match goal with p : (world * Z)%type |- _ => destruct p as [w3 fee'] end. inv_all H0. injection H0 as <- _.
      match goal with Ht : transfer_checked _ _ _ _ _ _ _ _ _ _ = Ok _ |- _ => rewrite (transfer_checked_lam _ _ _ _ _ _ _ _ _ _ _ (la_claimer a) Ht) end.
      match goal with Hc : charge_fee _ _ _ _ _ _ = Ok _ |- _ => pose proof (fee_floor _ _ _ _ _ _ _ _ (not_eq_sym N2) Hc) as F1; rewrite lam_set_dat in F1 end.
      match goal with Hc : init_account _ _ _ _ _ _ = Ok _ |- _ => pose proof (init_floor _ _ _ _ _ _ _ HE (not_eq_sym N3) Hc) as F2 end.
      match goal with Hc : init_ata_if_needed _ _ _ _ _ _ _ = Ok _ |- _ => pose proof (ata_floor _ _ _ _ _ _ _ _ HE (not_eq_sym N5) Hc) as F3 end.
      clear - F1 F2 F3. lia. }
    apply claim_inv in H as (tr & m & c & vt & dt & fee & F). pose proof (lf_pay _ _ _ _ _ _ _ _ _ _ _ _ _ _ _ F) as G.
    assert (la_vault a <> la_recipient_ata a) as Hvd.
    { intros He. apply N6. rewrite <-(pf_vault_owner _ _ _ _ _ _ _ _ _ _ _ _ _ _ _ G), <-(pf_dest_owner _ _ _ _ _ _ _ _ _ _ _ _ _ _ _ G).
      pose proof (lf_vault _ _ _ _ _ _ _ _ _ _ _ _ _ _ _ F) as Hv. rewrite He in Hv.
      destruct (pf_dest _ _ _ _ _ _ _ _ _ _ _ _ _ _ _ G) as [Hd|[Hd _]]; rewrite Hv in Hd; [by injection Hd as ->|done]. }
    pose proof (pf_step _ _ _ _ _ _ _ _ _ _ _ _ _ _ _ G) as [Gd Gc _ _]. unfold payout in Gd. rewrite decide_False in Gd by done.
    assert (la_campaign a <> la_recipient_ata a /\ la_campaign a <> la_vault a /\ la_receipt a <> la_vault a /\ la_receipt a <> la_campaign a) as (M1 & M2 & M3 & M4).
    { pose proof (lf_campaign _ _ _ _ _ _ _ _ _ _ _ _ _ _ _ F) as Hc. pose proof (lf_vault _ _ _ _ _ _ _ _ _ _ _ _ _ _ _ F) as Hv.
      pose proof (lf_receipt _ _ _ _ _ _ _ _ _ _ _ _ _ _ _ F) as Hr. split_and!; intros He.
      - rewrite He in Hc. destruct (pf_dest _ _ _ _ _ _ _ _ _ _ _ _ _ _ _ G) as [Hd|[Hd _]]; rewrite Hc in Hd; done.
      - rewrite He, Hv in Hc. done.
      - rewrite He, Hv in Hr. done.
      - rewrite He, Hc in Hr. done. }
    exists vt, dt, (amount, received E (la_mint a) (la_vault a) (la_recipient_ata a) (wclock x) amount), (DCampaign c), (DCampaign (campaign_claim c (get_current_time x))).
    split; cbn [claim_roles y_payer y_owner y_dest y_vault y_own y_treas y_ro y_nft y_new].
    - exact Gc.
    - rewrite Hlam. change (net [?p1; ?p2; ?p3] ?k) with (net ([p1] ++ [p2] ++ [p3]) k). rewrite !net_app, !net1_payer by done.
      pose proof (rent_due_nonneg E x (la_recipient_ata a) (ata_space E (la_mint a) (la_tp a)) HE). pose proof (rent_due_nonneg E x (la_receipt a) 8 HE). lia.
    - exact Hfloor.
    - intros k K1 K2 K3 K4. rewrite elem_of_list_singleton in K3, K4. rewrite Hlam. change (net [?p1; ?p2; ?p3] ?k) with (net ([p1] ++ [p2] ++ [p3]) k).
      rewrite !net_app, !net1_other by done. lia.
    - cbn [fst snd]. split; [apply received_range; [exact HE|]|exact (pf_amount _ _ _ _ _ _ _ _ _ _ _ _ _ _ _ G)]. bools. unfold is_u64 in *. bools. lia.
    - exact (pf_room _ _ _ _ _ _ _ _ _ _ _ _ _ _ _ G Hvd).
    - exact Hvd.
    - exact (lf_vault _ _ _ _ _ _ _ _ _ _ _ _ _ _ _ F).
    - exact (pf_vault_owner _ _ _ _ _ _ _ _ _ _ _ _ _ _ _ G).
    - exact (pf_dest _ _ _ _ _ _ _ _ _ _ _ _ _ _ _ G).
    - exact (pf_dest_owner _ _ _ _ _ _ _ _ _ _ _ _ _ _ _ G).
    - exact (lf_campaign _ _ _ _ _ _ _ _ _ _ _ _ _ _ _ F).
    - done.
    - intros k. cbn [app]. rewrite !elem_of_cons, elem_of_nil. intros [->|[->|[->|[]]]].
      + eexists. split; [exact (lf_treasury _ _ _ _ _ _ _ _ _ _ _ _ _ _ _ F)|done].
      + eexists. split; [exact (lf_mint _ _ _ _ _ _ _ _ _ _ _ _ _ _ _ F)|done].
      + eexists. split; [exact Hfeed|done].
    - intros k Hk. by apply elem_of_nil in Hk.
    - intros k Hk. apply elem_of_list_singleton in Hk as ->. exact (lf_receipt _ _ _ _ _ _ _ _ _ _ _ _ _ _ _ F).
    - rewrite Gd, lookup_insert_ne, lookup_insert by done. done.
    - rewrite Gd, lookup_insert. done.
    - rewrite Gd, lookup_insert_ne, lookup_insert_ne, lookup_insert by done. done.
    - intros k Hk. apply elem_of_list_singleton in Hk as ->. pose proof (lf_receipt_dest _ _ _ _ _ _ _ _ _ _ _ _ _ _ _ F).
      rewrite Gd, lookup_insert_ne, lookup_insert_ne, lookup_insert_ne, lookup_insert by done. done.
    - intros k K1 K2 K3 K4. rewrite elem_of_list_singleton in K4. rewrite Gd, !lookup_insert_ne by done. done.
  Qed.
  Lemma claim_shiftable : shiftable (claim_roles a) (Some (la_campaign a)) (fun x => is_feed x (la_feed a)) run.
  Proof.
    intros x y e xs fl ft H (fo & fr & fd & Hfeed) Sh Bn Bd _ Bp Bv Bt. unfold run in *. cbn [exec] in *.
    cbn [claim_roles y_payer y_owner y_dest y_vault y_own y_treas y_ro y_nft y_new] in *.
    unfold merkle_exec in *. apply rbind_ok in H as (u & Hok & H). rewrite Hok. cbn [rbind].
    destruct (claim_pdas _ _ _ H) as (Pc & Pt & Pr & Pv & Pd).
    assert (la_treasury a <> la_claimer a /\ la_receipt a <> la_claimer a /\ la_recipient_ata a <> la_claimer a)
      as (N2 & N3 & N5) by (split_and!; (eapply wallet_ne; [exact Wc|eassumption])).
    assert (la_vault a <> la_recipient_ata a) as Hvd.
    { assert (has_eff (claim_roles a) x y) as (? & ? & ? & ? & ? & X) by (apply (claim_eff x y e); [by do 3 eexists|unfold run; cbn [exec]; unfold merkle_exec; rewrite Hok; exact H]).
      exact (ef_ne _ _ _ _ _ _ _ _ X). }
    set (S := acct (claim_roles a)) in *.
    assert (la_claimer a ∈ S /\ la_recipient_ata a ∈ S /\ la_vault a ∈ S /\ la_campaign a ∈ S /\ la_treasury a ∈ S /\ la_mint a ∈ S /\ la_feed a ∈ S /\ la_receipt a ∈ S)
      as (I1 & I2 & I3 & I4 & I5 & I6 & I7 & I8).
    { unfold S, acct, claim_roles; cbn [y_payer y_owner y_dest y_vault y_own y_treas y_ro y_nft y_new app]. split_and!; mm. }
    unfold claim in *.
    apply rbind_ok in H as (u1 & Hu1 & H). rewrite Hu1. cbn [rbind].
    apply rbind_ok in H as (tr & Htr & H). apply load_merkle_treasury_ok in Htr.
    rewrite (proj2 (load_merkle_treasury_ok xs _ _) (sh_plain _ _ _ _ _ _ _ _ Sh I5 Htr I)). cbn [rbind].
    apply rbind_ok in H as (m & Hm & H). apply load_mint_ok in Hm.
    rewrite (proj2 (load_mint_ok xs _ _) (sh_plain _ _ _ _ _ _ _ _ Sh I6 Hm I)). cbn [rbind].
    apply rbind_ok in H as (c & Hc & H). apply load_campaign_ok in Hc.
    destruct (sh_campaign _ _ _ _ _ _ _ Sh I4 Hc) as (c' & Hc' & Hcc).
    rewrite (proj2 (load_campaign_ok xs _ _) Hc'). cbn [rbind].
    destruct (claim_same_fields _ _ _ Hcc) as (-> & -> & -> & -> & -> & -> & ->).
    apply rbind_ok in H as (vt & Hv & H). apply load_token_ok in Hv.
    rewrite (proj2 (load_token_ok xs _ _) (sh_token _ _ _ _ _ _ _ _ Sh I3 Hv)). cbn [rbind]. rewrite check_ata_amount.
    apply rbind_ok in H as (wa & Ha & H). apply rbind_ok in H as (u2 & Hu2 & H). apply rbind_ok in H as (wb & Hb & H).
    apply rbind_ok in H as (u3 & Hu3 & H). apply rbind_ok in H as (u4 & Hu4 & H). apply rbind_ok in H as (u5 & Hu5 & H).
    apply rbind_ok in H as (u6 & Hu6 & H). apply rbind_ok in H as (u7 & Hu7 & H). apply rbind_ok in H as (u8 & Hu8 & H).
    apply rbind_ok in H as ([wc fee] & Hf & H). apply rbind_ok in H as (wd & Ht & H). injection H as -> <-.
    pose proof (ata_payer _ _ _ _ _ _ _ _ HE (not_eq_sym N5) Ha) as La. pose proof (init_payer _ _ _ _ _ _ _ HE (not_eq_sym N3) Hb) as Lb.
    pose proof (fee_payer _ _ _ _ _ _ _ _ (not_eq_sym N2) Hf) as Lc. rewrite lam_set_dat in Lc.
    rewrite (transfer_checked_lam _ _ _ _ _ _ _ _ _ _ _ (la_claimer a) Ht) in Bp.
    assert (get_current_time wb = get_current_time x) as Htime by (unfold get_current_time; by rewrite (ck_init _ _ _ _ _ _ _ Hb), (ck_ata_if _ _ _ _ _ _ _ _ Ha)).
    destruct (sh_ata_if _ _ _ _ _ _ _ _ _ _ _ _ _ Sh I1 I2 I6 Bd Ha ltac:(lia)) as (xa & -> & Sha). cbn [rbind]. rewrite Hu2. cbn [rbind].
    destruct (sh_init _ _ _ _ _ _ _ _ _ _ DClaimReceipt _ Sha I1 I8 (Bn _ (elem_of_list_here _ _)) I Hb ltac:(lia)) as (xb & -> & Shb). cbn [rbind].
    rewrite Hu3. cbn [rbind]. rewrite Hu4. cbn [rbind]. rewrite Hu5. cbn [rbind]. rewrite Hu6. cbn [rbind]. rewrite Hu7. cbn [rbind].
    cbv zeta. rewrite (sh_time _ _ _ _ _ _ Shb), Hu8. cbn [rbind]. rewrite Htime in *. rewrite Hcc.
    pose proof (sh_set_campaign _ _ _ _ _ _ (campaign_claim c (get_current_time x)) Shb) as Shs.
    assert (wdat (set_dat (la_campaign a) (DCampaign (campaign_claim c (get_current_time x))) wb) !! la_feed a = Some (DFeed fo fr fd)) as Hfeed'.
    { rewrite wdat_set_dat, lookup_insert_ne; [exact (init_keeps _ _ _ _ _ _ _ _ _ Hb (ata_keeps _ _ _ _ _ _ _ _ _ _ Ha Hfeed))|].
      intros He. rewrite He, Hfeed in Hc. done. }
    destruct (sh_fee _ _ _ _ _ _ _ _ _ _ _ _ _ _ _ _ Shs I1 I5 I7 (not_eq_sym N2) Hfeed' Hf Bp) as (xc & -> & Shc). cbn [rbind].
    destruct (sh_transfer_checked _ _ _ _ _ _ _ _ _ _ _ _ _ _ _ _ Shc I3 I2 I6 Hvd Ht Bv Bt) as (xd & -> & Shd). cbn [rbind].
    exists xd. done.
  Qed.
End claims.

Ltac roles_simpl := cbn [claim_roles withdraw_roles cancel_roles y_payer y_owner y_dest y_vault y_own y_treas y_ro y_nft y_new app] in *.

Section withdrawals.
  Context (E : env) (HE : env_ok E) (sg : list key) (a : withdraw_accs).
  Context (Wc : wallet E (wa_signer a)) (Wr : wallet E (wa_withdrawal_recipient a)).
  Lemma withdraw_pdas amount x y e : withdraw E sg a amount x = Ok (y, e) ->
    pda_of E PLockup (wa_stream a) = true /\ pda_of E PLockup (wa_treasury a) = true /\
    pda_of E PAssocToken (wa_vault a) = true /\ pda_of E PAssocToken (wa_dest a) = true.
  Proof.
    intros H. apply withdraw_inv in H as (tr & m & nt & s & s' & vt & dt & fee & wd & F). destruct F.
    split; [exact (proj1 (cpa_pda _ _ _ _ _ HE wf_stream_addr))|].
    split; [exact (proj1 (cpa_pda _ _ _ _ _ HE wf_treasury_addr))|].
    split; [exact (proj1 (ata_pda _ _ _ _ _ HE wf_vault_addr))|].
    exact (proj1 (ata_pda _ _ _ _ _ HE (pf_dest_addr _ _ _ _ _ _ _ _ _ _ _ _ _ _ _ wf_pay))).
  Qed.
  Lemma withdraw_eff amount x y e : 0 <= amount -> is_feed x (wa_feed a) -> withdraw E sg a amount x = Ok (y, e) -> has_eff (withdraw_roles a) x y.
  Proof.
    intros Ham (fo & fr & fd & Hfeed) H.
    destruct (withdraw_lam _ _ _ _ _ _ _ HE H) as (fee0 & _ & Hfee0 & _ & Hlam).
    destruct (withdraw_pdas _ _ _ _ H) as (Pc & Pt & Pv & Pd).
    assert (wa_stream a <> wa_signer a /\ wa_treasury a <> wa_signer a /\ wa_vault a <> wa_signer a /\ wa_dest a <> wa_signer a)
      as (N1 & N2 & N4 & N5) by (split_and!; (eapply wallet_ne; [exact Wc|eassumption])).
    assert (wa_stream a <> wa_withdrawal_recipient a) as N6 by (eapply wallet_ne; [exact Wr|exact Pc]).
    assert (lam y (wa_signer a) = lam x (wa_signer a) \/ 0 <= lam y (wa_signer a)) as Hfloor.
    { pose proof H as H0. unfold withdraw in H0. apply rbind_ok in H0 as ([[w1 s] m] & Ha & H0).
      apply withdraw_accounts_inv in Ha as (tr1 & nt1 & vt1 & _ & _ & _ & _ & _ & _ & _ & _ & _ & _ & _ & _ & _ & _ & _ & _ & _ & _ & _ & Hi).
      unfold withdraw_handler in H0. inv_all H0. match goal with p : (world * Z)%type |- _ => destruct p as [w3 fee'] end. inv_all H0. injection H0 as <- _.
      match goal with Ht : transfer_checked _ _ _ _ _ _ _ _ _ _ = Ok _ |- _ => rewrite (transfer_checked_lam _ _ _ _ _ _ _ _ _ _ _ (wa_signer a) Ht) end.
      match goal with Hc : charge_fee _ _ _ _ _ _ = Ok _ |- _ => pose proof (fee_floor _ _ _ _ _ _ _ _ (not_eq_sym N2) Hc) as F1; rewrite lam_set_dat in F1 end.
      pose proof (ata_floor _ _ _ _ _ _ _ _ HE (not_eq_sym N5) Hi) as F3. clear - F1 F3. lia. }
    apply withdraw_inv in H as (tr & m & nt & s & s' & vt & dt & fee & wd & F). destruct F. pose proof wf_pay as G.
    assert (wa_vault a <> wa_dest a) as Hvd.
    { intros He. apply N6. rewrite <-(pf_vault_owner _ _ _ _ _ _ _ _ _ _ _ _ _ _ _ G), <-(pf_dest_owner _ _ _ _ _ _ _ _ _ _ _ _ _ _ _ G).
      rewrite He in wf_vault.
      destruct (pf_dest _ _ _ _ _ _ _ _ _ _ _ _ _ _ _ G) as [Hd|[Hd _]]; rewrite wf_vault in Hd; [by injection Hd as ->|done]. }
    pose proof (pf_step _ _ _ _ _ _ _ _ _ _ _ _ _ _ _ G) as [Gd Gc _ _]. unfold payout in Gd. rewrite decide_False in Gd by done.
    assert (wa_stream a <> wa_dest a /\ wa_stream a <> wa_vault a) as (M1 & M2).
    { split; intros He.
      - rewrite He in wf_stream. destruct (pf_dest _ _ _ _ _ _ _ _ _ _ _ _ _ _ _ G) as [Hd|[Hd _]]; rewrite wf_stream in Hd; done.
      - rewrite He, wf_vault in wf_stream. done. }
    exists vt, dt, (amount, received E (wa_mint a) (wa_vault a) (wa_dest a) (wclock x) amount), (DStream s), (DStream s').
    split; roles_simpl.
    - exact Gc.
    - rewrite Hlam. change (net [?p1; ?p2] ?k) with (net ([p1] ++ [p2]) k). rewrite !net_app, !net1_payer by done.
      pose proof (rent_due_nonneg E x (wa_dest a) (ata_space E (wa_mint a) (wa_tp a)) HE). lia.
    - exact Hfloor.
    - intros k K1 K2 K3 K4. rewrite elem_of_list_singleton in K3. rewrite Hlam. change (net [?p1; ?p2] ?k) with (net ([p1] ++ [p2]) k).
      rewrite !net_app, !net1_other by done. lia.
    - cbn [fst snd]. split; [apply received_range; [exact HE|exact Ham]|exact (pf_amount _ _ _ _ _ _ _ _ _ _ _ _ _ _ _ G)].
    - exact (pf_room _ _ _ _ _ _ _ _ _ _ _ _ _ _ _ G Hvd).
    - exact Hvd.
    - exact wf_vault.
    - exact (pf_vault_owner _ _ _ _ _ _ _ _ _ _ _ _ _ _ _ G).
    - exact (pf_dest _ _ _ _ _ _ _ _ _ _ _ _ _ _ _ G).
    - exact (pf_dest_owner _ _ _ _ _ _ _ _ _ _ _ _ _ _ _ G).
    - exact wf_stream.
    - cbn. by eexists.
    - intros k. rewrite !elem_of_cons, elem_of_nil. destruct wf_nft_mint as [nm Hnm]. intros [->|[->|[->|[->|[]]]]].
      + eexists. split; [exact wf_treasury|done].
      + eexists. split; [exact wf_mint|done].
      + eexists. split; [exact Hnm|done].
      + eexists. split; [exact Hfeed|done].
    - intros k Hk. apply elem_of_list_singleton in Hk as ->. eexists. exact wf_nft.
    - intros k Hk. by apply elem_of_nil in Hk.
    - rewrite Gd, lookup_insert_ne, lookup_insert by done. done.
    - rewrite Gd, lookup_insert. done.
    - rewrite Gd, lookup_insert_ne, lookup_insert_ne, lookup_insert by done. done.
    - intros k Hk. by apply elem_of_nil in Hk.
    - intros k K1 K2 K3 K4. rewrite Gd, !lookup_insert_ne by done. done.
  Qed.
  Lemma withdraw_shift_fn amount : 0 <= amount -> shiftable (withdraw_roles a) None (fun x => is_feed x (wa_feed a)) (withdraw E sg a amount).
  Proof.
    intros Ham x y e xs fl ft H Hgood Sh _ Bd Bn Bp Bv Bt.
    destruct (withdraw_pdas _ _ _ _ H) as (Pc & Pt & Pv & Pd).
    assert (wa_treasury a <> wa_signer a /\ wa_dest a <> wa_signer a) as (N2 & N5) by (split_and!; (eapply wallet_ne; [exact Wc|eassumption])).
    assert (wa_vault a <> wa_dest a) as Hvd.
    { destruct (withdraw_eff _ _ _ _ Ham Hgood H) as (? & ? & ? & ? & ? & X). exact (ef_ne _ _ _ _ _ _ _ _ X). }
    destruct Hgood as (fo & fr & fd & Hfeed). roles_simpl.
    set (S := acct (withdraw_roles a)) in *.
    assert (wa_signer a ∈ S /\ wa_dest a ∈ S /\ wa_vault a ∈ S /\ wa_stream a ∈ S /\ wa_treasury a ∈ S /\ wa_mint a ∈ S /\ wa_feed a ∈ S /\ wa_nft_ata a ∈ S /\ wa_nft_mint a ∈ S)
      as (I1 & I2 & I3 & I4 & I5 & I6 & I7 & I8 & I9).
    { unfold S, acct; roles_simpl. split_and!; mm. }
    unfold withdraw in *. apply rbind_ok in H as ([[wa s] m] & Hacc & H).
    assert (exists xa, withdraw_accounts E sg a xs = Ok (xa, s, m) /\ shifted S fl ft None wa xa /\
      init_ata_if_needed E (wa_signer a) (wa_dest a) (wa_withdrawal_recipient a) (wa_mint a) (wa_tp a) x = Ok wa /\ wdat x !! wa_stream a = Some (DStream s)) as (xa & -> & Sha & Ha & Hs).
    { assert (lam y (wa_signer a) <= lam wa (wa_signer a)) as Ly.
      { unfold withdraw_handler in H. inv_all H. match goal with p : (world * Z)%type |- _ => destruct p as [w3 fee'] end. inv_all H. injection H as <- _.
        match goal with Ht : transfer_checked _ _ _ _ _ _ _ _ _ _ = Ok _ |- _ => rewrite (transfer_checked_lam _ _ _ _ _ _ _ _ _ _ _ (wa_signer a) Ht) end.
        match goal with Hc : charge_fee _ _ _ _ _ _ = Ok _ |- _ => pose proof (fee_payer _ _ _ _ _ _ _ _ (not_eq_sym N2) Hc) as F1; rewrite lam_set_dat in F1 end.
        exact F1. }
      unfold withdraw_accounts in *. apply rbind_ok in Hacc as (u1 & Hu1 & Hacc). rewrite Hu1. cbn [rbind].
      apply rbind_ok in Hacc as (tr & Htr & Hacc). apply load_lockup_treasury_ok in Htr.
      rewrite (proj2 (load_lockup_treasury_ok xs _ _) (sh_plain _ _ _ _ _ _ _ _ Sh I5 Htr I)). cbn [rbind].
      apply rbind_ok in Hacc as (m0 & Hm & Hacc). apply load_mint_ok in Hm.
      rewrite (proj2 (load_mint_ok xs _ _) (sh_plain _ _ _ _ _ _ _ _ Sh I6 Hm I)). cbn [rbind].
      apply rbind_ok in Hacc as (nt & Hn & Hacc). apply load_token_ok in Hn.
      pose proof (sh_token _ _ _ _ _ _ _ _ Sh I8 Hn) as Hn'. rewrite (Bn _ (elem_of_list_here _ _)), Z.add_0_r, with_amount_id in Hn' by done.
      rewrite (proj2 (load_token_ok xs _ _) Hn'). cbn [rbind].
      apply rbind_ok in Hacc as (s0 & Hs & Hacc). apply load_stream_ok in Hs.
      rewrite (proj2 (load_stream_ok xs _ _) (sh_plain _ _ _ _ _ _ _ _ Sh I4 Hs I)). cbn [rbind].
      apply rbind_ok in Hacc as (vt & Hv & Hacc). apply load_token_ok in Hv.
      rewrite (proj2 (load_token_ok xs _ _) (sh_token _ _ _ _ _ _ _ _ Sh I3 Hv)). cbn [rbind]. rewrite check_ata_amount.
      apply rbind_ok in Hacc as (nm & Hnm & Hacc). apply load_mint_ok in Hnm.
      rewrite (proj2 (load_mint_ok xs _ _) (sh_plain _ _ _ _ _ _ _ _ Sh I9 Hnm I)). cbn [rbind].
      apply rbind_ok in Hacc as (wa0 & Ha & Hacc).
      apply rbind_ok in Hacc as (u3 & Hu3 & Hacc). apply rbind_ok in Hacc as (u4 & Hu4 & Hacc). apply rbind_ok in Hacc as (u5 & Hu5 & Hacc).
      apply rbind_ok in Hacc as (u6 & Hu6 & Hacc). apply rbind_ok in Hacc as (u7 & Hu7 & Hacc). apply rbind_ok in Hacc as (u8 & Hu8 & Hacc).
      apply rbind_ok in Hacc as (u9 & Hu9 & Hacc). apply rbind_ok in Hacc as (u10 & Hu10 & Hacc). apply rbind_ok in Hacc as (u11 & Hu11 & Hacc).
      injection Hacc as -> -> ->.
      destruct (sh_ata_if _ _ _ _ _ _ _ _ _ _ _ _ _ Sh I1 I2 I6 Bd Ha ltac:(lia)) as (xa & -> & Sha). cbn [rbind].
      rewrite Hu3. cbn [rbind]. rewrite Hu4. cbn [rbind]. rewrite Hu5. cbn [rbind]. rewrite Hu6. cbn [rbind]. rewrite Hu7. cbn [rbind].
      rewrite Hu8. cbn [rbind]. rewrite Hu9. cbn [rbind]. rewrite Hu10. cbn [rbind]. rewrite Hu11. cbn [rbind]. exists xa. done. }
    cbn [rbind]. unfold withdraw_handler in *. rewrite (sh_time _ _ _ _ _ _ Sha).
    apply rbind_ok in H as (wd & Hwd & H). rewrite Hwd. cbn [rbind]. apply rbind_ok in H as (u1 & Hu1 & H). rewrite Hu1. cbn [rbind].
    apply rbind_ok in H as (s' & Hs' & H). rewrite Hs'. cbn [rbind]. cbv zeta in *.
    apply rbind_ok in H as ([wc fee] & Hf & H). apply rbind_ok in H as (wz & Ht & H). injection H as -> <-.
    rewrite (transfer_checked_lam _ _ _ _ _ _ _ _ _ _ _ (wa_signer a) Ht) in Bp.
    pose proof (sh_set_plain _ _ _ _ _ _ (wa_stream a) (DStream s') Sha I) as Shs.
    assert (wdat (set_dat (wa_stream a) (DStream s') wa) !! wa_feed a = Some (DFeed fo fr fd)) as Hfeed'.
    { rewrite wdat_set_dat, lookup_insert_ne; [exact (ata_keeps _ _ _ _ _ _ _ _ _ _ Ha Hfeed)|].
      intros He. rewrite He, Hfeed in Hs. done. }
    destruct (sh_fee _ _ _ _ _ _ _ _ _ _ _ _ _ _ _ _ Shs I1 I5 I7 (not_eq_sym N2) Hfeed' Hf Bp) as (xc & -> & Shc). cbn [rbind].
    destruct (sh_transfer_checked _ _ _ _ _ _ _ _ _ _ _ _ _ _ _ _ Shc I3 I2 I6 Hvd Ht Bv Bt) as (xd & -> & Shd). cbn [rbind].
    exists xd. done.
  Qed.
  Lemma withdraw_shiftable amount : shiftable (withdraw_roles a) None (fun x => is_feed x (wa_feed a)) (exec E sg (IL (LWithdraw a amount))).
  Proof.
    intros x y e xs fl ft H. cbn [exec] in *. unfold lockup_exec in *. apply rbind_ok in H as (u & Hok & H). rewrite Hok. cbn [rbind].
    assert (0 <= amount) as Ham. { apply ensure_ok in Hok. simpl in Hok. bools. unfold is_u64 in *. bools. lia. }
    exact (withdraw_shift_fn amount Ham x y e xs fl ft H).
  Qed.
  Lemma withdraw_max_shiftable : shiftable (withdraw_roles a) None (fun x => is_feed x (wa_feed a)) (exec E sg (IL (LWithdrawMax a))).
  Proof.
    intros x y e xs fl ft H Hg Sh B1 B2 B3 B4 B5 B6. cbn [exec] in *. unfold lockup_exec in *. apply rbind_ok in H as (u & Hok & H). rewrite Hok. cbn [rbind].
    apply withdraw_max_eq in H as (wd & (w1 & s & m & Hacc & Hwd) & H).
    pose proof (withdrawable_nonneg _ _ _ _ _ _ Hwd) as Ham.
    destruct (withdraw_shift_fn wd Ham x y e xs fl ft H Hg Sh B1 B2 B3 B4 B5 B6) as (ys & Hys & Shy). exists ys. split; [|exact Shy].
    apply withdraw_max_eq. exists wd. split; [|exact Hys].
    unfold withdraw in Hys. apply rbind_ok in Hys as ([[x1 s1] m1] & Hacc1 & _). exists x1, s1, m1. split; [exact Hacc1|].
    apply withdraw_accounts_inv in Hacc as (? & ? & ? & _ & _ & _ & _ & _ & _ & _ & _ & _ & _ & _ & _ & Hs & _).
    apply withdraw_accounts_inv in Hacc1 as (? & ? & ? & _ & _ & _ & _ & _ & _ & _ & _ & _ & _ & _ & _ & Hs1 & _).
    assert (wa_stream a ∈ acct (withdraw_roles a)) as I4 by (unfold acct; roles_simpl; mm).
    rewrite (sh_plain _ _ _ _ _ _ _ _ Sh I4 Hs I) in Hs1. injection Hs1 as <-. rewrite (sh_time _ _ _ _ _ _ Sh). exact Hwd.
  Qed.
  Lemma withdraw_exec_eff ix x y e : is_withdraw ix a -> is_feed x (wa_feed a) -> exec E sg (IL ix) x = Ok (y, e) -> has_eff (withdraw_roles a) x y.
  Proof.
    intros Hix Hg H. cbn [exec] in H. unfold lockup_exec in H. apply rbind_ok in H as (u & Hok & H). destruct Hix as [->|[amount ->]].
    - apply withdraw_max_eq in H as (wd & (w1 & s & m & _ & Hwd) & H). exact (withdraw_eff wd x y e (withdrawable_nonneg _ _ _ _ _ _ Hwd) Hg H).
    - assert (0 <= amount) as Ham. { apply ensure_ok in Hok. simpl in Hok. bools. unfold is_u64 in *. bools. lia. }
      exact (withdraw_eff amount x y e Ham Hg H).
  Qed.
End withdrawals.

Section cancels.
  Context (E : env) (HE : env_ok E) (sg : list key) (a : cancel_accs) (Wc : wallet E (xa_sender a)).
  Let run := exec E sg (IL (LCancel a)).
  Lemma cancel_pdas x y e : Lockup.cancel E sg a x = Ok (y, e) ->
    pda_of E PLockup (xa_stream a) = true /\ pda_of E PAssocToken (xa_vault a) = true /\ pda_of E PAssocToken (xa_sender_ata a) = true.
  Proof.
    intros H. apply cancel_inv in H as (m & s & vt & dt & st & F). destruct F.
    split; [exact (proj1 (cpa_pda _ _ _ _ _ HE cf_stream_addr))|].
    split; [exact (proj1 (ata_pda _ _ _ _ _ HE cf_vault_addr))|].
    exact (proj1 (ata_pda _ _ _ _ _ HE (pf_dest_addr _ _ _ _ _ _ _ _ _ _ _ _ _ _ _ cf_pay))).
  Qed.
  Lemma cancel_eff x y e : run x = Ok (y, e) -> has_eff (cancel_roles a) x y.
  Proof.
    intros H. unfold run in H. cbn [exec] in H. unfold lockup_exec in H. apply rbind_ok in H as (u & Hok & H).
    destruct (cancel_pdas _ _ _ H) as (Pc & Pv & Pd).
    assert (xa_stream a <> xa_sender a /\ xa_vault a <> xa_sender a /\ xa_sender_ata a <> xa_sender a)
      as (N1 & N4 & N5) by (split_and!; (eapply wallet_ne; [exact Wc|eassumption])).
    assert ((lam y (xa_sender a) = lam x (xa_sender a) \/ 0 <= lam y (xa_sender a)) /\
      forall k, lam y k = lam x k + net [(xa_sender a, xa_sender_ata a, rent_due E x (xa_sender_ata a) (ata_space E (xa_mint a) (xa_tp a)))] k) as [Hfloor Hlam].
    { pose proof H as H0. unfold Lockup.cancel in H0. inv_all H0. injection H0 as <- _.
      match goal with Hc : init_ata_if_needed _ _ _ _ _ _ _ = Ok _, Ht : transfer_checked _ _ _ _ _ _ _ _ _ _ = Ok _ |- _ =>
        split; [|intros k]; rewrite (transfer_checked_lam _ _ _ _ _ _ _ _ _ _ _ _ Ht), lam_set_dat;
        [exact (ata_floor _ _ _ _ _ _ _ _ HE (not_eq_sym N5) Hc)|exact (init_ata_net _ _ _ _ _ _ _ _ k (eo_rent _ HE) Hc)] end. }
    apply cancel_inv in H as (m & s & vt & dt & st & F). destruct F. pose proof cf_pay as G.
    assert (xa_vault a <> xa_sender_ata a) as Hvd.
    { intros He. apply N1. rewrite <-(pf_vault_owner _ _ _ _ _ _ _ _ _ _ _ _ _ _ _ G), <-(pf_dest_owner _ _ _ _ _ _ _ _ _ _ _ _ _ _ _ G).
      rewrite He in cf_vault.
      destruct (pf_dest _ _ _ _ _ _ _ _ _ _ _ _ _ _ _ G) as [Hd|[Hd _]]; rewrite cf_vault in Hd; [by injection Hd as ->|done]. }
    pose proof (pf_step _ _ _ _ _ _ _ _ _ _ _ _ _ _ _ G) as [Gd Gc _ _]. unfold payout in Gd. rewrite decide_False in Gd by done.
    assert (xa_stream a <> xa_sender_ata a /\ xa_stream a <> xa_vault a) as (M1 & M2).
    { split; intros He.
      - rewrite He in cf_stream. destruct (pf_dest _ _ _ _ _ _ _ _ _ _ _ _ _ _ _ G) as [Hd|[Hd _]]; rewrite cf_stream in Hd; done.
      - rewrite He, cf_vault in cf_stream. done. }
    exists vt, dt, (deposited (s_amounts s) - st, received E (xa_mint a) (xa_vault a) (xa_sender_ata a) (wclock x) (deposited (s_amounts s) - st)), (DStream s), (DStream (stream_cancel s (deposited (s_amounts s) - st) (st - withdrawn (s_amounts s)))).
    split; roles_simpl.
    - exact Gc.
    - rewrite Hlam, net1_payer by done. pose proof (rent_due_nonneg E x (xa_sender_ata a) (ata_space E (xa_mint a) (xa_tp a)) HE). lia.
    - exact Hfloor.
    - intros k K1 K2 K3 K4. rewrite Hlam, net1_other by done. lia.
    - cbn [fst snd]. split; [apply received_range; [exact HE|lia]|exact (pf_amount _ _ _ _ _ _ _ _ _ _ _ _ _ _ _ G)].
    - exact (pf_room _ _ _ _ _ _ _ _ _ _ _ _ _ _ _ G Hvd).
    - exact Hvd.
    - exact cf_vault.
    - exact (pf_vault_owner _ _ _ _ _ _ _ _ _ _ _ _ _ _ _ G).
    - exact (pf_dest _ _ _ _ _ _ _ _ _ _ _ _ _ _ _ G).
    - exact (pf_dest_owner _ _ _ _ _ _ _ _ _ _ _ _ _ _ _ G).
    - exact cf_stream.
    - cbn. by eexists.
    - intros k. rewrite !elem_of_cons, elem_of_nil. destruct cf_nft_mint as [nm Hnm]. intros [->|[->|[]]].
      + eexists. split; [exact cf_mint|done].
      + eexists. split; [exact Hnm|done].
    - intros k Hk. by apply elem_of_nil in Hk.
    - intros k Hk. by apply elem_of_nil in Hk.
    - rewrite Gd, lookup_insert_ne, lookup_insert by done. done.
    - rewrite Gd, lookup_insert. done.
    - rewrite Gd, lookup_insert_ne, lookup_insert_ne, lookup_insert by done. done.
    - intros k Hk. by apply elem_of_nil in Hk.
    - intros k K1 K2 K3 K4. rewrite Gd, !lookup_insert_ne by done. done.
  Qed.
  Lemma cancel_shiftable : shiftable (cancel_roles a) None (fun _ => True) run.
  Proof.
    intros x y e xs fl ft H _ Sh _ Bd _ Bp Bv Bt.
    assert (xa_vault a <> xa_sender_ata a) as Hvd.
    { destruct (cancel_eff _ _ _ H) as (? & ? & ? & ? & ? & X). exact (ef_ne _ _ _ _ _ _ _ _ X). }
    unfold run in *. cbn [exec] in *. unfold lockup_exec in *. apply rbind_ok in H as (u & Hok & H). rewrite Hok. cbn [rbind]. roles_simpl.
    destruct (cancel_pdas _ _ _ H) as (Pc & Pv & Pd).
    set (S := acct (cancel_roles a)) in *.
    assert (xa_sender a ∈ S /\ xa_sender_ata a ∈ S /\ xa_vault a ∈ S /\ xa_stream a ∈ S /\ xa_mint a ∈ S /\ xa_nft_mint a ∈ S) as (I1 & I2 & I3 & I4 & I6 & I9).
    { unfold S, acct; roles_simpl. split_and!; mm. }
    unfold Lockup.cancel in *. apply rbind_ok in H as (u1 & Hu1 & H). rewrite Hu1. cbn [rbind].
    apply rbind_ok in H as (m0 & Hm & H). apply load_mint_ok in Hm.
    rewrite (proj2 (load_mint_ok xs _ _) (sh_plain _ _ _ _ _ _ _ _ Sh I6 Hm I)). cbn [rbind].
    apply rbind_ok in H as (s0 & Hs & H). apply load_stream_ok in Hs.
    rewrite (proj2 (load_stream_ok xs _ _) (sh_plain _ _ _ _ _ _ _ _ Sh I4 Hs I)). cbn [rbind].
    apply rbind_ok in H as (vt & Hv & H). apply load_token_ok in Hv.
    rewrite (proj2 (load_token_ok xs _ _) (sh_token _ _ _ _ _ _ _ _ Sh I3 Hv)). cbn [rbind]. rewrite check_ata_amount.
    apply rbind_ok in H as (nm & Hnm & H). apply load_mint_ok in Hnm.
    rewrite (proj2 (load_mint_ok xs _ _) (sh_plain _ _ _ _ _ _ _ _ Sh I9 Hnm I)). cbn [rbind].
    apply rbind_ok in H as (wa & Ha & H). apply rbind_ok in H as (u3 & Hu3 & H). apply rbind_ok in H as (u4 & Hu4 & H). apply rbind_ok in H as (u5 & Hu5 & H).
    apply rbind_ok in H as (u6 & Hu6 & H). cbv zeta in H. apply rbind_ok in H as (u7 & Hu7 & H). apply rbind_ok in H as (u8 & Hu8 & H).
    apply rbind_ok in H as (u9 & Hu9 & H). apply rbind_ok in H as (u10 & Hu10 & H). apply rbind_ok in H as (wz & Ht & H). injection H as -> <-.
    rewrite (transfer_checked_lam _ _ _ _ _ _ _ _ _ _ _ (xa_sender a) Ht), lam_set_dat in Bp.
    destruct (sh_ata_if _ _ _ _ _ _ _ _ _ _ _ _ _ Sh I1 I2 I6 Bd Ha Bp) as (xa & -> & Sha). cbn [rbind].
    rewrite Hu3. cbn [rbind]. rewrite Hu4. cbn [rbind]. rewrite Hu5. cbn [rbind]. rewrite Hu6. cbn [rbind]. cbv zeta.
    rewrite (sh_time _ _ _ _ _ _ Sha), Hu7. cbn [rbind]. rewrite Hu8. cbn [rbind]. rewrite Hu9. cbn [rbind]. rewrite Hu10. cbn [rbind].
    pose proof (sh_set_plain _ _ _ _ _ _ (xa_stream a) (DStream (stream_cancel s0 u9 u10)) Sha I) as Shs.
    destruct (sh_transfer_checked _ _ _ _ _ _ _ _ _ _ _ _ _ _ _ _ Shs I3 I2 I6 Hvd Ht Bv Bt) as (xd & -> & Shd). cbn [rbind].
    exists xd. done.
  Qed.
End cancels.

(** ** C65 *)
(** The instructions that pay tokens out of a stream or a campaign, and who is who in them. *)
Definition payout_of (i : any_ix) : option roles :=
  match i with
  | IM (MClaim a _ _ _) => Some (claim_roles a)
  | IL (LWithdraw a _) | IL (LWithdrawMax a) => Some (withdraw_roles a)
  | IL (LCancel a) => Some (cancel_roles a)
  | _ => None
  end.
Definition is_claim (i : any_ix) : bool := match i with IM (MClaim _ _ _ _) => true | _ => false end.
(** The price feed the instruction is given, if it charges a fee. *)
Definition feed_of (i : any_ix) : option key :=
  match i with
  | IM (MClaim a _ _ _) => Some (la_feed a)
  | IL (LWithdraw a _) | IL (LWithdrawMax a) => Some (wa_feed a)
  | _ => None
  end.
Definition good_feed (i : any_ix) (w : world) : Prop := match feed_of i with Some f => is_feed w f | None => True end.

Lemma payout_instance E sg i p : env_ok E -> payout_of i = Some p -> wallet E (y_payer p) -> wallet E (y_owner p) ->
  shiftable p (if is_claim i then Some (y_own p) else None) (good_feed i) (exec E sg i) /\
  (forall x y e, good_feed i x -> exec E sg i x = Ok (y, e) -> has_eff p x y) /\
  (forall x y e, exec E sg i x = Ok (y, e) -> forall k, k ∈ y_dest p :: y_vault p :: y_own p :: y_treas p ++ y_new p -> exists q, pda_of E q k = true) /\
  (forall x y e, exec E sg i x = Ok (y, e) -> exists q, pda_of E q (y_own p) = true) /\
  (forall x y e, exec E sg i x = Ok (y, e) -> is_claim i = true -> exists c, wdat x !! y_own p = Some (DCampaign c)).
Proof.
  intros HE Hp W1 W2. destruct i as [[]|[]]; try discriminate Hp; injection Hp as <-; roles_simpl.
  - cbn [is_claim]. split; [apply (cancel_shiftable E HE sg a W1)|].
    split; [intros x y e _; apply (cancel_eff E HE sg a W1)|].
    assert (forall x y e, exec E sg (IL (LCancel a)) x = Ok (y, e) -> pda_of E PLockup (xa_stream a) = true /\ pda_of E PAssocToken (xa_vault a) = true /\ pda_of E PAssocToken (xa_sender_ata a) = true) as Hpd.
    { intros x y e H. cbn [exec] in H. unfold lockup_exec in H. apply rbind_ok in H as (_ & _ & H). exact (cancel_pdas E HE sg a x y e H). }
    split; [|split; [|intros ? ? ? _ [=]]]; intros x y e H; destruct (Hpd x y e H) as (P1 & P2 & P3).
    + intros k. rewrite !elem_of_cons, elem_of_nil. intros [->|[->|[->|[]]]]; eexists; eassumption.
    + eexists; exact P1.
  - cbn [is_claim]. split; [apply (withdraw_shiftable E HE sg a W1 W2)|].
    split; [intros x y e; apply (withdraw_exec_eff E HE sg a W1 W2); right; by eexists|].
    assert (forall x y e, exec E sg (IL (LWithdraw a amount)) x = Ok (y, e) -> pda_of E PLockup (wa_stream a) = true /\ pda_of E PLockup (wa_treasury a) = true /\
      pda_of E PAssocToken (wa_vault a) = true /\ pda_of E PAssocToken (wa_dest a) = true) as Hpd.
    { intros x y e H. cbn [exec] in H. unfold lockup_exec in H. apply rbind_ok in H as (_ & _ & H). exact (withdraw_pdas E HE sg a _ x y e H). }
    split; [|split; [|intros ? ? ? _ [=]]]; intros x y e H; destruct (Hpd x y e H) as (P1 & P2 & P3 & P4).
    + intros k. rewrite !elem_of_cons, elem_of_nil. intros [->|[->|[->|[->|[]]]]]; eexists; eassumption.
    + eexists; exact P1.
  - cbn [is_claim]. split; [apply (withdraw_max_shiftable E HE sg a W1 W2)|].
    split; [intros x y e; apply (withdraw_exec_eff E HE sg a W1 W2); by left|].
    assert (forall x y e, exec E sg (IL (LWithdrawMax a)) x = Ok (y, e) -> pda_of E PLockup (wa_stream a) = true /\ pda_of E PLockup (wa_treasury a) = true /\
      pda_of E PAssocToken (wa_vault a) = true /\ pda_of E PAssocToken (wa_dest a) = true) as Hpd.
    { intros x y e H. cbn [exec] in H. unfold lockup_exec in H. apply rbind_ok in H as (_ & _ & H).
      apply withdraw_max_eq in H as (wd & _ & H). exact (withdraw_pdas E HE sg a _ x y e H). }
    split; [|split; [|intros ? ? ? _ [=]]]; intros x y e H; destruct (Hpd x y e H) as (P1 & P2 & P3 & P4).
    + intros k. rewrite !elem_of_cons, elem_of_nil. intros [->|[->|[->|[->|[]]]]]; eexists; eassumption.
    + eexists; exact P1.
  - cbn [is_claim]. split; [apply (claim_shiftable E HE sg a _ _ _ W1 W2)|].
    split; [intros x y e; apply (claim_eff E HE sg a _ _ _ W1 W2)|].
    assert (forall x y e, exec E sg (IM (MClaim a index amount proof)) x = Ok (y, e) -> claim E sg a index amount proof x = Ok (y, e)) as Hcl.
    { intros x y e H. cbn [exec] in H. unfold merkle_exec in H. by apply rbind_ok in H as (_ & _ & H). }
    split; [|split]; intros x y e H; apply Hcl in H; destruct (claim_pdas E HE sg a _ _ _ x y e H) as (P1 & P2 & P3 & P4 & P5).
    + intros k. rewrite !elem_of_cons, elem_of_nil. intros [->|[->|[->|[->|[->|[]]]]]]; eexists; eassumption.
    + eexists; exact P1.
    + intros _. apply claim_inv in H as (tr & m & c & vt & dt & fee & F). eexists. exact (lf_campaign _ _ _ _ _ _ _ _ _ _ _ _ _ _ _ F).
Qed.

(** Two payouts in a row, from different streams or, if both are claims, possibly from the same campaign: done in the
    other order they succeed as well, emit the same events and lead to the same world. They may share the payer, the
    treasury, the mint, the vault, the receiver and the receiver's token account. *)
Theorem C65_payouts_commute : forall E sg1 sg2 i j p q w w1 ev1 w12 ev2,
  env_ok E -> payout_of i = Some p -> payout_of j = Some q ->
  exec E sg1 i w = Ok (w1, ev1) -> exec E sg2 j w1 = Ok (w12, ev2) ->
  (* different streams *)
  (y_own p = y_own q -> is_claim i = true /\ is_claim j = true) ->
  (* payers and receivers are wallets *)
  wallet E (y_payer p) -> wallet E (y_owner p) -> wallet E (y_payer q) -> wallet E (y_owner q) ->
  (* the fee is quoted from an existing price feed *)
  good_feed i w -> good_feed j w ->
  (* neither pays with the other's stream NFT *)
  (forall k, k ∈ y_nft p -> k <> y_dest q /\ k <> y_vault q) -> (forall k, k ∈ y_nft q -> k <> y_dest p /\ k <> y_vault p) ->
  (* a token account that both pay into exists already: otherwise who creates it pays its rent *)
  (y_dest p = y_dest q -> wdat w !! y_dest p <> None) ->
  0 <= lam w (y_payer p) -> 0 <= lam w (y_payer q) ->
  exists w2 w21, exec E sg2 j w = Ok (w2, ev2) /\ exec E sg1 i w2 = Ok (w21, ev1) /\ same_world w12 w21.
Proof.
  intros E sg1 sg2 i j p q w w1 ev1 w12 ev2 HE Hp Hq R1 R2 Hown Wp1 Wp2 Wq1 Wq2 Gi Gj N1 N2 D B1 B2.
  destruct (payout_instance E sg1 i p HE Hp Wp1 Wp2) as (S1 & F1 & P1 & O1 & C1).
  destruct (payout_instance E sg2 j q HE Hq Wq1 Wq2) as (S2 & F2 & P2 & O2 & C2).
  assert (forall r x y f, has_eff r x y -> is_feed x f -> is_feed y f) as Kf.
  { intros r x y f (? & ? & ? & ? & ? & X) (fo & fr & fd & Hf). exists fo, fr, fd. rewrite <-Hf. exact (eff_kept X f _ Hf). }
  assert (forall r x y ix, has_eff r x y -> good_feed ix x -> good_feed ix y) as Kg.
  { intros r x y ix Hx. unfold good_feed. destruct (feed_of ix); [|done]. by apply (Kf r). }
  apply (payouts_commute p q _ _ (good_feed i) (good_feed j) (exec E sg1 i) (exec E sg2 j) S1 S2 F1 F2 w w1 w12 ev1 ev2 R1 R2 Gi); try done.
  - exact (Kg p w w1 j (F1 _ _ _ Gi R1) Gj).
  - intros x y e Hg Hx. apply (Kg q). exact (F2 _ _ _ Hg Hx).
  - intros k Hk. destruct (P2 _ _ _ R2 k Hk) as [pr Hpr]. exact (wallet_ne E _ _ pr Wp1 Hpr).
  - intros k Hk. destruct (P1 _ _ _ R1 k Hk) as [pr Hpr]. exact (wallet_ne E _ _ pr Wq1 Hpr).
  - destruct (O2 _ _ _ R2) as [pr Hpr]. apply not_eq_sym. exact (wallet_ne E _ _ pr Wp2 Hpr).
  - destruct (O1 _ _ _ R1) as [pr Hpr]. apply not_eq_sym. exact (wallet_ne E _ _ pr Wq2 Hpr).
  - intros He. destruct (Hown He) as [K1 K2]. rewrite K1, K2. split; [done|]. split; [done|]. exact (C1 _ _ _ R1 K1).
Qed.

(** ** Any order of a whole batch *)
(** What is asked of one payout: wallets, an existing feed, no negative lamports. *)
Definition fit (E : env) (w : world) (i : any_ix) : Prop :=
  exists p, payout_of i = Some p /\ wallet E (y_payer p) /\ wallet E (y_owner p) /\ good_feed i w /\ 0 <= lam w (y_payer p).
(** What is asked of two: not the same stream, not each other's NFT, no token account that the first of them has to create. *)
Definition compatible (w : world) (i j : any_ix) : Prop :=
  forall p q, payout_of i = Some p -> payout_of j = Some q ->
  (y_own p = y_own q -> is_claim i = true /\ is_claim j = true) /\
  (forall k, k ∈ y_nft p -> k <> y_dest q /\ k <> y_vault q) /\ (forall k, k ∈ y_nft q -> k <> y_dest p /\ k <> y_vault p) /\
  (y_dest p = y_dest q -> wdat w !! y_dest p <> None).
Fixpoint pairwise {A} (R : A -> A -> Prop) (l : list A) : Prop :=
  match l with [] => True | a :: l => Forall (R a) l /\ pairwise R l end.
(** Transactions one after the other, each with its signers; all have to succeed. The result pairs them with their events. *)
Fixpoint run_batch (E : env) (l : list (list key * any_ix)) (w : world) : res (world * list (list key * any_ix * list event)) :=
  match l with
  | [] => Ok (w, [])
  | (sg, i) :: l =>
      let! (w1, ev) := exec E sg i w in
      let! (w2, evs) := run_batch E l w1 in
      Ok (w2, (sg, i, ev) :: evs)
  end.

Lemma same_world_sym w w' : same_world w w' -> same_world w' w.
Proof. intros (A & B & C). split; [done|]. split; intros k; [by rewrite B|by rewrite C]. Qed.
Lemma same_world_trans w1 w2 w3 : same_world w1 w2 -> same_world w2 w3 -> same_world w1 w3.
Proof. intros (A & B & C) (A' & B' & C'). split; [congruence|]. split; intros k; [by rewrite B|by rewrite C]. Qed.
Lemma exec_same E sg i w1 w2 w1' e : same_world w1 w2 -> exec E sg i w1 = Ok (w1', e) ->
  exists w2', exec E sg i w2 = Ok (w2', e) /\ same_world w1' w2'.
Proof.
  intros (A & B & C) H.
  pose proof (C63_local E sg i w1 w2 A (fun k _ => conj (B k) (C k))) as Hs. rewrite H in Hs. unfold same_outcome in Hs.
  destruct (exec E sg i w2) as [[w2' e2]|] eqn:H2; [|done]. destruct Hs as [<- Hs]. exists w2'. split; [done|].
  split; [exact (ag_clock _ _ _ Hs)|].
  pose proof (exec_touches _ _ _ _ _ _ H) as T1. pose proof (exec_touches _ _ _ _ _ _ H2) as T2.
  assert (forall k, wdat w1' !! k = wdat w2' !! k /\ lam w1' k = lam w2' k) as Hall; [|split; intros k; apply Hall].
  intros k. destruct (decide (k ∈ accounts_of i)) as [Hk|Hk]; [split; [exact (ag_dat _ _ _ Hs k Hk)|exact (ag_lam _ _ _ Hs k Hk)]|].
  assert (k ∉ writable_of i) as Hw by (intros ?; by apply Hk, C63_writable).
  destruct (T1 k Hw) as [-> ->], (T2 k Hw) as [-> ->]. done.
Qed.
Lemma batch_same E l w1 w2 w1' e : same_world w1 w2 -> run_batch E l w1 = Ok (w1', e) ->
  exists w2', run_batch E l w2 = Ok (w2', e) /\ same_world w1' w2'.
Proof.
  revert w1 w2 w1' e. induction l as [|[sg i] l IH]; cbn [run_batch]; intros w1 w2 w1' e Hs H; [injection H as <- <-; by eexists|].
  apply rbind_ok in H as ([x ev] & Hx & H). apply rbind_ok in H as ([y evs] & Hy & H). injection H as <- <-.
  destruct (exec_same _ _ _ _ _ _ _ Hs Hx) as (x2 & -> & Hs2). cbn [rbind].
  destruct (IH _ _ _ _ Hs2 Hy) as (y2 & -> & Hs3). cbn [rbind]. by eexists.
Qed.

Lemma fit_eff E sg i w w' e : env_ok E -> fit E w i -> exec E sg i w = Ok (w', e) -> exists p, payout_of i = Some p /\ has_eff p w w'.
Proof.
  intros HE (p & Hp & W1 & W2 & G & _) H. exists p. split; [done|].
  destruct (payout_instance E sg i p HE Hp W1 W2) as (_ & F & _). exact (F _ _ _ G H).
Qed.
Lemma fit_keeps E sg i j w w' e : env_ok E -> fit E w i -> fit E w j -> exec E sg i w = Ok (w', e) -> fit E w' j.
Proof.
  intros HE Hi (q & Hq & W1 & W2 & G & L0) H. destruct Hi as (p & Hp & V1 & V2 & Gp & Lp).
  destruct (payout_instance E sg i p HE Hp V1 V2) as (_ & F & Pd & _). destruct (F _ _ _ Gp H) as (? & ? & ? & ? & ? & X).
  exists q. split; [done|]. split; [done|]. split; [done|]. split.
  - unfold good_feed in *. destruct (feed_of j) as [f|]; [|done]. destruct G as (fo & fr & fd & Hf). exists fo, fr, fd.
    rewrite <-Hf. exact (eff_kept X f _ Hf).
  - destruct (decide (y_payer q = y_payer p)) as [He|Hn].
    + rewrite He in *. destruct (ef_floor _ _ _ _ _ _ _ _ X); lia.
    + assert (forall k, k ∈ y_dest p :: y_vault p :: y_own p :: y_treas p ++ y_new p -> k <> y_payer q) as Hw.
      { intros k Hk. destruct (Pd _ _ _ H k Hk) as [pr Hpr]. exact (wallet_ne E _ _ pr W1 Hpr). }
      rewrite (ef_lam _ _ _ _ _ _ _ _ X); [done|done|..].
      * intros He. apply (Hw (y_dest p)); [mm|done].
      * intros He. apply (Hw (y_payer q)); [mm|done].
      * intros He. apply (Hw (y_payer q)); [mm|done].
Qed.
Lemma compatible_sym w i j : compatible w i j -> compatible w j i.
Proof.
  intros H q p Hq Hp. destruct (H p q Hp Hq) as (H1 & H2 & H3 & H4). split_and!; [|done|done|].
  - intros He. destruct (H1 (eq_sym He)). done.
  - intros He. rewrite He. by apply H4.
Qed.
Lemma compatible_keeps E sg i a b w w' e : env_ok E -> fit E w i -> compatible w a b -> exec E sg i w = Ok (w', e) -> compatible w' a b.
Proof.
  intros HE Hi Hc H p q Hp Hq. destruct (Hc p q Hp Hq) as (H1 & H2 & H3 & H4). split_and!; [done|done|done|].
  intros He Hn. destruct (fit_eff _ _ _ _ _ _ HE Hi H) as (r & _ & (? & ? & ? & ? & ? & X)).
  exact (H4 He (eff_keeps X _ Hn)).
Qed.
Lemma pairwise_perm {A} (R : A -> A -> Prop) l l' : (forall a b, R a b -> R b a) -> Permutation l l' -> pairwise R l -> pairwise R l'.
Proof.
  intros HR HP. induction HP as [|x l l' HP IH|x y l|l l1 l2 _ IH1 _ IH2]; cbn [pairwise]; [done|..].
  - intros [H1 H2]. split; [|by apply IH]. by rewrite <-HP.
  - intros [H1 [H2 H3]]. inversion H1 as [|? ? Hyx Hy]; subst. split; [|by split]. constructor; [by apply HR|done].
  - intros H. by apply IH2, IH1.
Qed.
Lemma pairwise_impl {A} (R R' : A -> A -> Prop) l : (forall a b, R a b -> R' a b) -> pairwise R l -> pairwise R' l.
Proof.
  intros HR. induction l as [|a l IH]; cbn [pairwise]; [done|]. intros [H1 H2]. split; [|by apply IH].
  eapply Forall_impl; [exact H1|]. intros b. apply HR.
Qed.

(** A batch of payouts, pairwise compatible: in any order it succeeds, every instruction emits the same events and the
    final world is the same. *)
Theorem C65_any_order : forall E l l' w w' out, env_ok E ->
  Forall (fun t => fit E w (snd t)) l -> pairwise (fun t t' => compatible w (snd t) (snd t')) l ->
  run_batch E l w = Ok (w', out) -> Permutation l l' ->
  exists w'' out', run_batch E l' w = Ok (w'', out') /\ same_world w' w'' /\ Permutation out out'.
Proof.
  intros E l l' w w' out HE Hf Hc H HP. revert w w' out Hf Hc H.
  induction HP as [|[sg i] l l' HP IH|[sg2 j] [sg1 i] l|l l1 l2 HP1 IH1 HP2 IH2]; intros w w' out Hf Hc H.
  - eexists _, _. split; [exact H|]. split; [|done]. split; [done|]. split; done.
  - cbn [run_batch] in *. apply rbind_ok in H as ([x ev] & Hx & H). apply rbind_ok in H as ([y evs] & Hy & H). injection H as <- <-.
    rewrite Hx. cbn [rbind]. inversion Hf as [|? ? Hfi Hfl]; subst. destruct Hc as [_ Hc]. cbn [snd] in *.
    destruct (IH x y evs) as (y' & evs' & -> & Hs & Hp); [| |exact Hy|].
    + eapply Forall_impl; [exact Hfl|]. intros t Ht. exact (fit_keeps _ _ _ _ _ _ _ HE Hfi Ht Hx).
    + eapply pairwise_impl; [|exact Hc]. intros a b Hab. exact (compatible_keeps _ _ _ _ _ _ _ _ HE Hfi Hab Hx).
    + cbn [rbind]. eexists _, _. split; [done|]. split; [done|]. by constructor.
  - cbn [run_batch] in *. apply rbind_ok in H as ([x ev1] & Hx & H). apply rbind_ok in H as ([y evs] & Hy & H). injection H as <- <-.
    apply rbind_ok in Hy as ([z ev2] & Hz & Hy). apply rbind_ok in Hy as ([z' evs'] & Hz' & Hy). injection Hy as <- <-.
    inversion Hf as [|? ? (p & Hp & W1 & W2 & G1 & L1) Hf']; subst. inversion Hf' as [|? ? (q & Hq & W3 & W4 & G3 & L2) _]; subst.
    destruct Hc as [Hc _]. inversion Hc as [|? ? Hij _]; subst. cbn [snd] in *. destruct (Hij p q Hp Hq) as (C1 & C2 & C3 & C4).
    destruct (C65_payouts_commute E sg1 sg2 i j p q w x ev1 z ev2) as (w2 & w21 & E1 & E2 & Hs); try done.
    rewrite E1. cbn [rbind]. rewrite E2. cbn [rbind].
    destruct (batch_same _ _ _ _ _ _ Hs Hz') as (z2 & -> & Hs2). cbn [rbind]. eexists _, _. split; [done|]. split; [done|]. constructor.
  - destruct (IH1 _ _ _ Hf Hc H) as (x & o1 & Hx & Hs1 & Hp1).
    destruct (IH2 w x o1) as (y & o2 & Hy & Hs2 & Hp2); [by rewrite <-HP1| |exact Hx|].
    + eapply pairwise_perm; [|exact HP1|exact Hc]. intros a b. apply compatible_sym.
    + eexists _, _. split; [exact Hy|]. split; [exact (same_world_trans _ _ _ Hs1 Hs2)|]. by etrans.
Qed.

(** ** Example: two claims from one campaign paid by the same wallet, a claim from another campaign into an account the
    first claim pays as well, and a withdrawal into it. *)
Definition batch : list (list key * any_ix) :=
  [([kOther], IM (MClaim (claim_by kOther 1500 0 0 kRecipient) 0 500 [leafB; leafC]));
   ([kOther], IM (MClaim (claim_by kOther 1500 0 2 kCollector) 2 200 [nodeAB]));
   ([kRecipient], IM (MClaim (claim_by kRecipient 1500 3000 0 kRecipient) 0 500 [leafB; leafC]));
   ([kRecipient], IL (LWithdraw (withdraw_to 2 kRecipient) 100))].
Lemma toy_wallet k : forallb (fun p => negb (pda_of E0 p k)) [PLockup; PMerkle; PAssocToken; PMetadata] = true -> wallet E0 k.
Proof.
  intros H p. rewrite forallb_forall in H. specialize (H p). destruct (pda_of E0 p k); [|done].
  discriminate H. destruct p; simpl; tauto.
Qed.
Ltac compat :=
  intros p q [= <-] [= <-]; roles_simpl; split_and!;
  [ try (intros _; split; reflexivity); vm_compute; discriminate
  | intros k; rewrite ?elem_of_cons, ?elem_of_nil; intros H; repeat (destruct H as [H|H]; [subst k|]); try destruct H; split; vm_compute; discriminate
  | intros k; rewrite ?elem_of_cons, ?elem_of_nil; intros H; repeat (destruct H as [H|H]; [subst k|]); try destruct H; split; vm_compute; discriminate
  | first [intros _; vm_compute; discriminate | vm_compute; discriminate] ].
Example C65_example :
  let w := T 1800 w5 in
  reachable E0 w /\ is_ok (run_batch E0 batch w) = true /\
  Forall (fun t => fit E0 w (snd t)) batch /\ pairwise (fun t t' => compatible w (snd t) (snd t')) batch.
Proof.
  cbv zeta. split; [|split; [|split]].
  - eapply reachable_later; [eapply history_reach, w5_hist|]. apply (step_later E0 any_clock _ AOthers [] _). apply step_others; [|done].
    apply others_T; [exact (E0_sane _ _ w5_hist)|exact (E0_keys _ _ w5_hist)].
  - vm_compute. reflexivity.
  - repeat (apply List.Forall_cons; [eexists; split; [reflexivity|]; roles_simpl; split; [apply toy_wallet; vm_compute; reflexivity|];
      split; [apply toy_wallet; vm_compute; reflexivity|]; split; [do 3 eexists; vm_compute; reflexivity|vm_compute; discriminate]|]).
    apply List.Forall_nil.
  - cbn [pairwise batch]. repeat (split; [repeat (apply List.Forall_cons; [compat|]); apply List.Forall_nil|]). done.
Qed.
Print Assumptions C65_payouts_commute.
Print Assumptions C65_any_order.
