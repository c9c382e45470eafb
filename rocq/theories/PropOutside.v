(** C73: what the histories assume about everybody else follows from the rules of the token programs. *)
From Verif Require Export Outside PropNft PropBurn.
From Verif Require Import Lockup.

(** Two owners that one account (of the same token) had during the run share their associated token account: a collision
    of the address hash. *)
Definition ata_clash (E : env) (cs : list chain) : Prop :=
  exists c1 c2 k t1 t2, c1 ∈ cs /\ c2 ∈ cs /\ wdat (on c1) !! k = Some (DToken t1) /\ wdat (on c2) !! k = Some (DToken t2) /\
    t_mint t1 = t_mint t2 /\ t_prog t1 = t_prog t2 /\ t_owner t1 <> t_owner t2 /\
    ata_address E (t_owner t1) (t_mint t1) (t_prog t1) = Ok k /\ ata_address E (t_owner t2) (t_mint t2) (t_prog t2) = Ok k.

(** ** The invariant of delegates and close authorities *)

(** An associated token account belongs to the owner it was derived for and has neither delegate nor close authority, or
    the owner it was derived for was there earlier ([cs]) and could sign. *)
Definition good (E : env) (cs : list chain) (k : key) (t : tokacc) (s : side) : Prop :=
  (ata_address E (t_owner t) (t_mint t) (t_prog t) = Ok k /\ s = no_side) \/
  exists c1 t1, c1 ∈ cs /\ wdat (on c1) !! k = Some (DToken t1) /\ t_mint t1 = t_mint t /\ t_prog t1 = t_prog t /\
    derived E (t_owner t1) = false /\ ata_address E (t_owner t1) (t_mint t1) (t_prog t1) = Ok k.
Definition side_inv (E : env) (cs : list chain) (w : world) (s : key -> side) : Prop := forall k,
  match wdat w !! k with
  | Some (DToken t) => pda_of E PAssocToken k = true -> good E cs k t (s k)
  | _ => s k = no_side
  end.
Record chain_inv (E : env) (cs : list chain) (c : chain) : Prop := {
  ci_sane : token_sane E (on c);
  ci_keys : keys_sane (on c);
  ci_side : side_inv E cs (on c) (side_of c) }.

Lemma good_same E cs k t t' s : t_owner t' = t_owner t -> t_mint t' = t_mint t -> t_prog t' = t_prog t -> good E cs k t s -> good E cs k t' s.
Proof. intros H1 H2 H3. unfold good. by rewrite H1, H2, H3. Qed.
(** Once the owner signs, everything about the account is open. *)
Lemma good_signed E cs c k t s t' s' : c ∈ cs -> wdat (on c) !! k = Some (DToken t) -> good E cs k t s -> derived E (t_owner t) = false ->
  t_mint t' = t_mint t -> t_prog t' = t_prog t -> good E cs k t' s'.
Proof.
  intros Hc Hk [[Ha _]|Ho] Hd Hm Hp; right; rewrite Hm, Hp; [|exact Ho]. exists c, t. split; [exact Hc|]. split; [exact Hk|]. do 2 (split; [reflexivity|]).
  split; [exact Hd|exact Ha].
Qed.
Lemma good_sided E cs k t s t' s' : good E cs k t s -> s <> no_side -> t_mint t' = t_mint t -> t_prog t' = t_prog t -> good E cs k t' s'.
Proof. intros [[_ ?]|Ho] Hn Hm Hp; [done|]. right. rewrite Hm, Hp. exact Ho. Qed.

Lemma side_upd E cs w s w' s' k : side_inv E cs w s ->
  (forall i, i <> k -> wdat w' !! i = wdat w !! i /\ s' i = s i) ->
  match wdat w' !! k with Some (DToken t) => pda_of E PAssocToken k = true -> good E cs k t (s' k) | _ => s' k = no_side end ->
  side_inv E cs w' s'.
Proof.
  intros Hs Ho Hk i. destruct (decide (i = k)) as [->|Hne]; [exact Hk|]. destruct (Ho _ Hne) as [-> ->]. exact (Hs i).
Qed.

(** A vault has neither, unless addresses collide. *)
Definition ours (E : env) (k : key) : bool := pda_of E PLockup k || pda_of E PMerkle k.
Lemma ours_derived E k : ours E k = true -> derived E k = true.
Proof. unfold ours, derived. intros [->| ->]%orb_prop; [done|]. by rewrite orb_true_r. Qed.
Lemma vault_side E cs c k t : env_ok E -> c ∈ cs -> chain_inv E cs c -> wdat (on c) !! k = Some (DToken t) ->
  ata_clash E cs \/ (ours E (t_owner t) = true -> ata_address E (t_owner t) (t_mint t) (t_prog t) = Ok k -> side_of c k = no_side).
Proof.
  intros HE Hc [Hs Hks Hi] Hk. specialize (Hi k). rewrite Hk in Hi.
  destruct (pda_of E PAssocToken k) eqn:Hp.
  - destruct (Hi eq_refl) as [[_ ?]|(c1 & t1 & H1 & H2 & H3 & H4 & Hd & Ha)]; [by right|].
    destruct (ours E (t_owner t)) eqn:Ho; [|by right].
    destruct (ata_address E (t_owner t) (t_mint t) (t_prog t)) as [k'|] eqn:Hk'; [|by right].
    destruct (decide (k' = k)) as [->|Hne]; [left|right; congruence].
    exists c1, c, k, t1, t. split; [exact H1|]. split; [exact Hc|]. split; [exact H2|]. split; [exact Hk|]. split; [exact H3|]. split; [exact H4|].
    split; [|split; [exact Ha|exact Hk']]. intros He. rewrite He, (ours_derived _ _ Ho) in Hd. discriminate.
  - right. intros _ Ha. destruct (ata_pda _ _ _ _ _ HE Ha) as [? _]. congruence.
Qed.

(** ** One write *)
Lemma wput_same w k o : wdat (wput k o w) !! k = o.
Proof. unfold wput. simpl. by rewrite lookup_partial_alter. Qed.
Lemma wput_other w k o i : i <> k -> wdat (wput k o w) !! i = wdat w !! i.
Proof. intros. unfold wput. simpl. by rewrite lookup_partial_alter_ne. Qed.

Definition outer (o : option adata) : Prop := forall d, o = Some d -> owner_prog d = None.
Lemma wput_untouched E p w k o : outer (wdat w !! k) -> outer o -> (p = PLockup \/ p = PMerkle) ->
  (wdat w !! k = None -> o <> None -> pda_of E p k = false) ->
  (forall t, wdat w !! k = Some (DToken t) -> pda_of E p (t_owner t) = true -> ata_address E (t_owner t) (t_mint t) (t_prog t) = Ok k ->
     exists t', o = Some (DToken t') /\ t_prog t' = t_prog t /\ t_mint t' = t_mint t /\ t_owner t' = t_owner t /\
       (plain E (t_mint t) = true -> t_amount t <= t_amount t')) ->
  untouched E p w (wput k o w).
Proof.
  intros Hx Ho Hp Hn Hv. split.
  - intros i d Hi Hd. destruct (decide (i = k)) as [->|Hne]; [rewrite (Hx _ Hi) in Hd; done|]. by rewrite wput_other.
  - intros i d Hi Hd. destruct (decide (i = k)) as [->|Hne]; [|by rewrite wput_other in Hi].
    rewrite wput_same in Hi. rewrite (Ho _ Hi) in Hd. done.
  - intros i Hpi Hi. destruct (decide (i = k)) as [->|Hne]; [|by rewrite wput_other]. rewrite wput_same.
    destruct o as [d|]; [|done]. rewrite (Hn Hi) in Hpi; done.
  - intros i t Hi Hpi Ha. destruct (decide (i = k)) as [->|Hne].
    + rewrite wput_same. destruct (Hv _ Hi Hpi Ha) as (t' & -> & ?). by exists t'.
    + rewrite wput_other by done. exists t. by split_and!.
Qed.
Lemma untouched_trans E p w1 w2 w3 : untouched E p w1 w2 -> untouched E p w2 w3 -> untouched E p w1 w3.
Proof.
  intros [A1 B1 C1 D1] [A2 B2 C2 D2]. split.
  - intros k d Hk Hd. destruct (A1 _ _ Hk Hd) as [H1 ?]. destruct (A2 _ _ H1 Hd) as [? ?]. split; [done|lia].
  - intros k d Hk Hd. exact (B1 _ _ (B2 _ _ Hk Hd) Hd).
  - intros k Hp Hk. exact (C2 _ Hp (C1 _ Hp Hk)).
  - intros k t Hk Hp Ha. destruct (D1 _ _ Hk Hp Ha) as (t1 & H1 & P1 & M1 & O1 & L1).
    destruct (D2 _ _ H1) as (t2 & H2 & P2 & M2 & O2 & L2); [congruence|congruence|]. exists t2. split_and!; try congruence.
    intros Hpl. specialize (L1 Hpl). rewrite M1 in L2. specialize (L2 Hpl). lia.
Qed.
Lemma sealed_trans E w1 w2 w3 : sealed_mints_kept E w1 w2 -> sealed_mints_kept E w2 w3 -> sealed_mints_kept E w1 w3.
Proof.
  intros A B k m a Hk Ha Hp Hpl. destruct (A _ _ _ Hk Ha Hp Hpl) as (m1 & H1 & ? & ? & A1 & ?).
  destruct (B _ _ _ H1 A1 Hp Hpl) as (m2 & HH2 & ? & ? & A2 & ?). exists m2. split_and!; try congruence. lia.
Qed.
Lemma wput_sealed E w k o :
  (forall m a, wdat w !! k = Some (DMint m) -> m_authority m = Some a -> pda_of E PMetadata a = true -> plain E k = true ->
     exists m', o = Some (DMint m') /\ m_prog m' = m_prog m /\ m_decimals m' = m_decimals m /\ m_authority m' = Some a /\ m_supply m' <= m_supply m) ->
  sealed_mints_kept E w (wput k o w).
Proof.
  intros H i m a Hi Ha Hp Hpl. destruct (decide (i = k)) as [->|Hne].
  - rewrite wput_same. destruct (H _ _ Hi Ha Hp Hpl) as (m' & -> & ?). by exists m'.
  - rewrite wput_other by done. exists m. split_and!; [done..|lia].
Qed.

(** Ranges, and supply with a slack of [d]. *)
Record sane_with (E : env) (w : world) (d : key -> Z) : Prop := {
  sw_range : forall k t, wdat w !! k = Some (DToken t) -> 0 <= t_amount t <= U64_MAX;
  sw_supply : forall m, pda_of E PLockup m = true -> total_balance w m + d m <= supply w m }.
Lemma sane_zero E w : token_sane E w <-> sane_with E w (fun _ => 0).
Proof. split; intros [A B]; split; try done; intros m Hm; specialize (B m Hm); lia. Qed.
Definition sup_of (o : option adata) : Z := match o with Some (DMint m) => m_supply m | _ => 0 end.
Lemma tok_sum_put D k o m : tok_sum (partial_alter (fun _ => o) k D) m = tok_sum D m - opt_tok m (D !! k) + opt_tok m o.
Proof.
  destruct o as [d|].
  - change (partial_alter (fun _ => Some d) k D) with (<[k:=d]> D). rewrite tok_sum_insert. simpl. lia.
  - change (partial_alter (fun _ => None) k D) with (delete k D). simpl. destruct (D !! k) as [x|] eqn:Hx.
    + rewrite <- (insert_delete D k x Hx) at 2. rewrite tok_sum_insert_new by apply lookup_delete. simpl. lia.
    + rewrite delete_notin by done. simpl. lia.
Qed.
Lemma wput_sane E w k o d d' : sane_with E w d ->
  (forall t, o = Some (DToken t) -> 0 <= t_amount t <= U64_MAX) ->
  (forall m, pda_of E PLockup m = true ->
     d' m + opt_tok m o - opt_tok m (wdat w !! k) <= d m + (if decide (k = m) then sup_of o - sup_of (wdat w !! k) else 0)) ->
  sane_with E (wput k o w) d'.
Proof.
  intros [A B] H1 H2. split.
  - intros i t Hi. destruct (decide (i = k)) as [->|Hne]; [rewrite wput_same in Hi; by apply H1|]. rewrite wput_other in Hi by done. by eapply A.
  - intros m Hm. specialize (B m Hm). specialize (H2 m Hm). rewrite total_balance_sum in *. unfold wput at 1. simpl. rewrite tok_sum_put.
    assert (supply (wput k o w) m = supply w m + (if decide (k = m) then sup_of o - sup_of (wdat w !! k) else 0)) as ->; [|lia].
    unfold supply. destruct (decide (k = m)) as [->|Hne].
    + rewrite wput_same. fold (sup_of o). fold (sup_of (wdat w !! m)). lia.
    + rewrite wput_other by done. lia.
Qed.
Lemma wput_keys w k o : keys_sane w -> (forall t, o = Some (DToken t) -> key_ok (t_mint t) /\ key_ok (t_owner t)) -> keys_sane (wput k o w).
Proof.
  intros H Ho i t Hi. destruct (decide (i = k)) as [->|Hne]; [rewrite wput_same in Hi; by apply Ho|]. rewrite wput_other in Hi by done. exact (H _ _ Hi).
Qed.

(** ** Operations that write one account *)

(** The invariant with some slack in the supplies, and what is kept meanwhile. *)
Record chain_with (E : env) (cs : list chain) (d : key -> Z) (c : chain) : Prop := {
  cw_sane : sane_with E (on c) d;
  cw_keys : keys_sane (on c);
  cw_side : side_inv E cs (on c) (side_of c) }.
Definition kept (E : env) (w w' : world) : Prop := untouched E PLockup w w' /\ untouched E PMerkle w w' /\ sealed_mints_kept E w w'.
(** No new associated accounts. *)
Definition same_atas (w w' : world) : Prop := forall k t, wdat w' !! k = Some (DToken t) ->
  exists t0, wdat w !! k = Some (DToken t0) /\ t_mint t0 = t_mint t /\ t_prog t0 = t_prog t.
Definition zero : key -> Z := fun _ => 0.
Lemma chain_with_zero E cs c : chain_inv E cs c <-> chain_with E cs zero c.
Proof. split; intros [A B C]; split; try done; by apply sane_zero. Qed.
Lemma kept_trans E w1 w2 w3 : kept E w1 w2 -> kept E w2 w3 -> kept E w1 w3.
Proof.
  intros (A & B & C) (A' & B' & C'). split; [by eapply untouched_trans|]. split; [by eapply untouched_trans|by eapply sealed_trans].
Qed.
Lemma same_atas_trans w1 w2 w3 : same_atas w1 w2 -> same_atas w2 w3 -> same_atas w1 w3.
Proof.
  intros A B k t Hk. destruct (B _ _ Hk) as (t2 & H2 & M2 & P2). destruct (A _ _ H2) as (t1 & H1 & M1 & P1). exists t1.
  split; [exact H1|]. split; congruence.
Qed.
Lemma same_atas_refl w : same_atas w w.
Proof. intros k t Hk. exists t. split; [exact Hk|done]. Qed.
Lemma same_atas_put w k o : (forall t, o = Some (DToken t) -> exists t0, wdat w !! k = Some (DToken t0) /\ t_mint t0 = t_mint t /\ t_prog t0 = t_prog t) ->
  same_atas w (wput k o w).
Proof.
  intros H i t Hi. destruct (decide (i = k)) as [->|Hne]; [rewrite wput_same in Hi; exact (H _ Hi)|]. rewrite wput_other in Hi by done. exists t. split; [exact Hi|done].
Qed.
Lemma kept_done E cs c c' : chain_with E cs zero c' -> kept E (on c) (on c') -> ata_kept E (on c) (on c') ->
  chain_inv E cs c' /\ others_step E (on c) (on c').
Proof. intros Hc (A & B & C) D. apply chain_with_zero in Hc. split; [exact Hc|]. destruct Hc. by split. Qed.

Lemma write_step E cs c c' k o d d' : env_ok E -> chain_with E cs d c ->
  on c' = wput k o (on c) -> (forall i, i <> k -> side_of c' i = side_of c i) ->
  outer (wdat (on c) !! k) -> outer o ->
  (wdat (on c) !! k = None -> o <> None -> ours E k = false) ->
  (forall t, wdat (on c) !! k = Some (DToken t) -> ours E (t_owner t) = true -> ata_address E (t_owner t) (t_mint t) (t_prog t) = Ok k ->
     exists t', o = Some (DToken t') /\ t_prog t' = t_prog t /\ t_mint t' = t_mint t /\ t_owner t' = t_owner t /\
       (plain E (t_mint t) = true -> t_amount t <= t_amount t')) ->
  (forall m a, wdat (on c) !! k = Some (DMint m) -> m_authority m = Some a -> pda_of E PMetadata a = true -> plain E k = true ->
     exists m', o = Some (DMint m') /\ m_prog m' = m_prog m /\ m_decimals m' = m_decimals m /\ m_authority m' = Some a /\ m_supply m' <= m_supply m) ->
  (forall t, o = Some (DToken t) -> 0 <= t_amount t <= U64_MAX /\ key_ok (t_mint t) /\ key_ok (t_owner t)) ->
  (forall m, pda_of E PLockup m = true ->
     d' m + opt_tok m o - opt_tok m (wdat (on c) !! k) <= d m + (if decide (k = m) then sup_of o - sup_of (wdat (on c) !! k) else 0)) ->
  match o with Some (DToken t) => pda_of E PAssocToken k = true -> good E cs k t (side_of c' k) | _ => side_of c' k = no_side end ->
  chain_with E cs d' c' /\ kept E (on c) (on c').
Proof.
  intros HE [Hs Hks Hsi] Hon Hsd Hx Ho Hn Hv Hse Hr Hsu Hg.
  assert (sane_with E (on c') d') as Hsane.
  { rewrite Hon. apply (wput_sane _ _ _ _ d); [done|intros t Ht; apply (Hr _ Ht)|exact Hsu]. }
  assert (keys_sane (on c')) as Hkeys.
  { rewrite Hon. apply wput_keys; [done|]. intros t Ht. apply (Hr _ Ht). }
  assert (ours E k = false -> forall p, (p = PLockup \/ p = PMerkle) -> pda_of E p k = false) as Hk.
  { unfold ours. intros [H1 H2]%orb_false_elim p [-> | ->]; done. }
  assert (forall x p, (p = PLockup \/ p = PMerkle) -> pda_of E p x = true -> ours E x = true) as Hours.
  { unfold ours. intros x p [-> | ->] ->; [done|]. apply orb_true_r. }
  assert (forall p, (p = PLockup \/ p = PMerkle) -> untouched E p (on c) (on c')) as Hun.
  { intros p Hp. rewrite Hon. apply wput_untouched; [done|done|done| |].
    - intros H1 H2. by apply Hk; [apply Hn|].
    - intros t Ht Hpt Ha. exact (Hv t Ht (Hours _ _ Hp Hpt) Ha). }
  split.
  - split; [done|done|]. eapply (side_upd E cs (on c) (side_of c) _ _ k); [done| |].
    + intros i Hi. rewrite Hon, wput_other by done. split; [done|by apply Hsd].
    + rewrite Hon, wput_same. exact Hg.
  - split; [apply Hun; by left|]. split; [apply Hun; by right|]. rewrite Hon. by apply wput_sealed.
Qed.

Lemma and_third (A B C : Prop) : C -> A /\ B -> A /\ B /\ C. Proof. tauto. Qed.
(** Writing a token account. *)
Lemma token_write E cs c c' k t t' d d' : env_ok E -> chain_with E cs d c ->
  wdat (on c) !! k = Some (DToken t) -> on c' = wput k (Some (DToken t')) (on c) -> (forall i, i <> k -> side_of c' i = side_of c i) ->
  t_mint t' = t_mint t -> t_prog t' = t_prog t -> key_ok (t_owner t') -> 0 <= t_amount t' <= U64_MAX ->
  (ours E (t_owner t) = true -> ata_address E (t_owner t) (t_mint t) (t_prog t) = Ok k -> t_owner t' = t_owner t /\
     (plain E (t_mint t) = true -> t_amount t <= t_amount t')) ->
  (forall m, pda_of E PLockup m = true -> d' m + (if t_mint t =? m then t_amount t' - t_amount t else 0) <= d m) ->
  (pda_of E PAssocToken k = true -> good E cs k t (side_of c k) -> good E cs k t' (side_of c' k)) ->
  chain_with E cs d' c' /\ kept E (on c) (on c') /\ same_atas (on c) (on c').
Proof.
  intros HE Hi Hk Hon Hsd Hm Hp Hko Hr Hv Hsu Hg. apply and_third.
  { rewrite Hon. apply same_atas_put. intros x [= <-]. exists t. split; [exact Hk|done]. }
  eapply write_step; [done|exact Hi|exact Hon|exact Hsd|..]; rewrite ?Hk.
  - by intros x [= <-].
  - by intros x [= <-].
  - done.
  - intros t0 [= <-] H1 H2. destruct (Hv H1 H2). exists t'. done.
  - done.
  - intros t0 [= <-]. split; [done|]. rewrite Hm. split; [apply (cw_keys _ _ _ _ Hi _ _ Hk)|done].
  - intros m Hm'. cbn [opt_tok sup_of tok_of]. specialize (Hsu m Hm'). rewrite Hm. destruct (t_mint t =? m); destruct (decide (k = m)); lia.
  - intros Hpa. apply Hg; [done|]. pose proof (cw_side _ _ _ _ Hi k) as Hs. rewrite Hk in Hs. by apply Hs.
Qed.

(** Writing a mint. *)
Lemma mint_write E cs c c' k m m' d d' : env_ok E -> chain_with E cs d c ->
  wdat (on c) !! k = Some (DMint m) -> on c' = wput k (Some (DMint m')) (on c) -> (forall i, side_of c' i = side_of c i) ->
  (forall a, m_authority m = Some a -> pda_of E PMetadata a = true -> plain E k = true ->
     m_prog m' = m_prog m /\ m_decimals m' = m_decimals m /\ m_authority m' = Some a /\ m_supply m' <= m_supply m) ->
  (forall x, pda_of E PLockup x = true -> d' x <= d x + (if decide (k = x) then m_supply m' - m_supply m else 0)) ->
  chain_with E cs d' c' /\ kept E (on c) (on c') /\ same_atas (on c) (on c').
Proof.
  intros HE Hi Hk Hon Hsd Ha Hsu. apply and_third.
  { rewrite Hon. apply same_atas_put. discriminate. }
  eapply write_step; [done|exact Hi|exact Hon|by intros; apply Hsd|..]; rewrite ?Hk.
  - by intros x [= <-].
  - by intros x [= <-].
  - done.
  - done.
  - intros m0 a [= <-] H1 H2 H3. destruct (Ha a H1 H2 H3) as (? & ? & ? & ?). by exists m'.
  - done.
  - intros x Hx. cbn [opt_tok sup_of tok_of]. specialize (Hsu x Hx). lia.
  - rewrite Hsd. pose proof (cw_side _ _ _ _ Hi k) as Hs. by rewrite Hk in Hs.
Qed.

(** Writing only delegates and close authorities. *)
Lemma kept_refl E w : kept E w w.
Proof.
  split; [|split].
  - split; try done. intros i ti Hi _ _. exists ti. by split_and!.
  - split; try done. intros i ti Hi _ _. exists ti. by split_and!.
  - intros i m a Hi Ha Hp Hpl. exists m. split_and!; [done..|lia].
Qed.
Lemma side_write E cs c c' k t d : env_ok E -> chain_with E cs d c ->
  wdat (on c) !! k = Some (DToken t) -> on c' = on c -> (forall i, i <> k -> side_of c' i = side_of c i) ->
  (pda_of E PAssocToken k = true -> good E cs k t (side_of c k) -> good E cs k t (side_of c' k)) ->
  chain_with E cs d c' /\ kept E (on c) (on c') /\ same_atas (on c) (on c').
Proof.
  intros HE [Hs Hks Hsi] Hk Hon Hsd Hg. split.
  - split; [by rewrite Hon|by rewrite Hon|]. eapply (side_upd E cs (on c) (side_of c) _ _ k); [done| |].
    + intros i Hi. rewrite Hon. split; [done|by apply Hsd].
    + rewrite Hon, Hk. intros Hp. apply Hg; [done|]. specialize (Hsi k). rewrite Hk in Hsi. by apply Hsi.
  - rewrite Hon. split; [apply kept_refl|apply same_atas_refl].
Qed.

Lemma side_put_same c k s : side_of (put_side k s c) k = s.
Proof. unfold side_of, put_side. simpl. by rewrite lookup_insert. Qed.
Lemma side_put_other c k s i : i <> k -> side_of (put_side k s c) i = side_of c i.
Proof. intros. unfold side_of, put_side. simpl. by rewrite lookup_insert_ne. Qed.
Lemma side_put_put c k o i : side_of (put k o c) i = side_of c i.
Proof. done. Qed.

Lemma may_spend_ok E sg s t auth amount s' : outsiders E sg -> may_spend sg s t auth amount = Ok s' ->
  (s' = s /\ derived E (t_owner t) = false /\ key_ok (t_owner t)) \/ s <> no_side.
Proof.
  intros Hsg H. unfold may_spend in H. inv1 H. loads.
  destruct (Z.eqb_spec (t_owner t) auth) as [<-|Hne]; [left|right].
  - injection H as <-. split; [done|]. destruct (Hsg _ He). by split.
  - intros ->. discriminate.
Qed.
Lemma derived_not_ours E k : derived E k = false -> ours E k = false.
Proof. intros H. destruct (ours E k) eqn:Ho; [|done]. rewrite (ours_derived _ _ Ho) in H. done. Qed.

(** Spending: never from a vault, and the account stays good. *)
Lemma spend_ok E cs c sg k t auth amount s' : env_ok E -> c ∈ cs -> chain_inv E cs c -> outsiders E sg ->
  wdat (on c) !! k = Some (DToken t) -> may_spend sg (side_of c k) t auth amount = Ok s' ->
  ata_clash E cs \/
  ((ours E (t_owner t) = true -> ata_address E (t_owner t) (t_mint t) (t_prog t) = Ok k -> False) /\
   forall t', t_mint t' = t_mint t -> t_prog t' = t_prog t -> good E cs k t (side_of c k) -> good E cs k t' s').
Proof.
  intros HE Hc Hi Hsg Hk Hm. destruct (vault_side _ _ _ _ _ HE Hc Hi Hk) as [?|Hv]; [by left|right].
  destruct (may_spend_ok _ _ _ _ _ _ _ Hsg Hm) as [(-> & Hd & Hko)|Hn]; split.
  - rewrite (derived_not_ours _ _ Hd). done.
  - intros t' H1 H2 Hg. exact (good_signed _ _ _ _ _ _ _ _ Hc Hk Hg Hd H1 H2).
  - intros Ho Ha. exact (Hn (Hv Ho Ha)).
  - intros t' H1 H2 Hg. exact (good_sided _ _ _ _ _ _ _ Hg Hn H1 H2).
Qed.

(** The owner signing, likewise. *)
Lemma signed_ok E sg (t : tokacc) : outsiders E sg -> t_owner t ∈ sg -> derived E (t_owner t) = false /\ ours E (t_owner t) = false /\ key_ok (t_owner t).
Proof. intros Hsg H. destruct (Hsg _ H). split; [done|]. split; [by apply derived_not_ours|done]. Qed.

Lemma is_key_ok k : is_key k = true -> key_ok k.
Proof. unfold is_key. intros H. unfold key_ok. lia. Qed.

(** An account that is new, or foreign before and after. *)
Lemma simple_write E cs c k o : env_ok E -> chain_inv E cs c ->
  (forall d, wdat (on c) !! k = Some d -> owner_prog d = None /\ (forall t, d <> DToken t) /\ (forall m, d <> DMint m)) ->
  (forall d, o = Some d -> owner_prog d = None) ->
  (wdat (on c) !! k = None -> o <> None -> ours E k = false) ->
  (forall t, o = Some (DToken t) -> t_amount t = 0 /\ key_ok (t_mint t) /\ key_ok (t_owner t) /\
     (pda_of E PAssocToken k = true -> ata_address E (t_owner t) (t_mint t) (t_prog t) = Ok k)) ->
  (forall m, o = Some (DMint m) -> m_supply m = 0) ->
  chain_inv E cs (put k o c) /\ others_step E (on c) (on (put k o c)).
Proof.
  intros HE Hi Hk Ho Hn Ht Hm. assert (chain_with E cs zero (put k o c) /\ kept E (on c) (on (put k o c))) as [A B].
  2: { apply kept_done; [exact A|exact B|]. intros i t Hit Hpi. cbn [on put] in Hit. destruct (decide (i = k)) as [->|Hne].
       - rewrite wput_same in Hit. right. exact (proj2 (proj2 (proj2 (Ht _ Hit))) Hpi).
       - rewrite wput_other in Hit by done. left. exists t. split; [exact Hit|done]. }
  all: eapply (write_step E cs c (put k o c) k o zero zero); [done|by apply chain_with_zero|done|done|..].
  all: try (intros d Hd; by apply (Hk d)). all: try (intros d Hd; by apply Ho). all: try done.
  all: try (intros t Hd; exfalso; destruct (Hk _ Hd) as (_ & H & _); by eapply H).
  all: try (intros m a Hd; exfalso; destruct (Hk _ Hd) as (_ & _ & H); by eapply H).
  all: try (intros t H; destruct (Ht _ H) as (-> & ? & ? & _); split; [unfold U64_MAX; lia|done]).
  all: try (intros m _; unfold zero;
    assert (opt_tok m o = 0) as -> by (destruct o as [[]|]; try done; cbn [opt_tok tok_of]; destruct (Ht _ eq_refl) as (-> & _); by destruct (_ =? _));
    assert (opt_tok m (wdat (on c) !! k) = 0) as ->
      by (destruct (wdat (on c) !! k) as [[]|] eqn:E1; try done; exfalso; destruct (Hk _ eq_refl) as (_ & H & _); by eapply H);
    assert (sup_of o = 0) as -> by (destruct o as [[]|]; try done; cbn [sup_of]; by apply Hm);
    assert (sup_of (wdat (on c) !! k) = 0) as ->
      by (destruct (wdat (on c) !! k) as [[]|] eqn:E1; try done; exfalso; destruct (Hk _ eq_refl) as (_ & _ & H); by eapply H);
    destruct (decide _); lia).
  all: assert (side_of (put k o c) k = no_side) as Hs by
    (change (side_of c k = no_side); pose proof (ci_side _ _ _ Hi k) as H; destruct (wdat (on c) !! k) as [[]|] eqn:E1; try done;
     exfalso; destruct (Hk _ eq_refl) as (_ & H' & _); by eapply H').
  all: destruct o as [[]|]; try exact Hs; intros Hp; left; destruct (Ht _ eq_refl) as (_ & _ & _ & H); split; [by apply H|exact Hs].
Qed.

Section ops.
Variables (E : env) (native : key) (sg : list key) (cs : list chain) (c : chain).
Hypothesis HE : env_ok E.
Hypothesis Hnat : pda_of E PLockup native = false.
Hypothesis Hsg : outsiders E sg.
Hypothesis Hc : c ∈ cs.
Hypothesis Hi : chain_inv E cs c.
Notation fine c' := (ata_clash E cs \/ (chain_inv E cs c' /\ others_step E (on c) (on c'))).

Lemma same_kept w w' : same_atas w w' -> ata_kept E w w'.
Proof. intros H k t Hk _. left. exact (H _ _ Hk). Qed.
Lemma two_steps c1 c2 d : chain_with E cs d c1 /\ kept E (on c) (on c1) /\ same_atas (on c) (on c1) ->
  chain_with E cs zero c2 /\ kept E (on c1) (on c2) /\ same_atas (on c1) (on c2) ->
  chain_inv E cs c2 /\ others_step E (on c) (on c2).
Proof. intros (_ & K1 & A1) (H2 & K2 & A2). apply kept_done; [done|by eapply kept_trans|]. apply same_kept. by eapply same_atas_trans. Qed.
Let Hz : chain_with E cs zero c. Proof. by apply chain_with_zero. Qed.
Lemma one_step c' : chain_with E cs zero c' /\ kept E (on c) (on c') /\ same_atas (on c) (on c') -> chain_inv E cs c' /\ others_step E (on c) (on c').
Proof. intros (? & ? & ?). apply kept_done; [done..|]. by apply same_kept. Qed.

Lemma out_transfer tp from to auth mintk amount c' : outside E native sg (OTransfer tp from to auth mintk amount) c = Ok c' -> fine c'.
Proof.
  intros H. cbn [outside] in H. repeat inv1 H. inv_ensure. loads. bools. match goal with Hf : of_option _ _ = Ok ?f |- _ => apply of_option_ok in Hf; rename f into fee, Hf into Hwh end.
  rename x into tf, x1 into td, x0 into m.
  match goal with Hm : may_spend _ _ _ _ _ = Ok ?s |- _ => pose proof (spend_ok _ _ _ _ _ _ _ _ _ HE Hc Hi Hsg He Hm) as [?|[Hnv Hg]]; [by left|right]; rename s into sd end.
  destruct (Z.eqb_spec from to) as [->|Hne].
  - injection H as <-. apply one_step. eapply side_write; [done|done|exact He|done| |].
    + intros i Hne. by apply side_put_other.
    + intros _ Hgd. rewrite side_put_same. by apply (Hg tf).
  - inv_all H. bools. injection H as <-.
    assert (0 <= fee <= amount) as Hfee.
    { unfold mint_withholds in Hwh. destruct (plain E mintk); [injection Hwh as <-; lia|]. by apply (eo_withheld _ HE _ _ _ _ _ _ ltac:(eassumption) Hwh). }
    pose proof (ts_range _ _ (ci_sane _ _ _ Hi) _ _ He). pose proof (ts_range _ _ (ci_sane _ _ _ Hi) _ _ He1).
    eapply (two_steps (put from (Some (DToken (with_amount tf (t_amount tf - amount)))) (put_side from sd c)) _ (fun k => if t_mint tf =? k then amount else 0)).
    + eapply token_write; [done|exact Hz|exact He|done| |done|done| | | | |].
      * intros i Hn. rewrite side_put_put. by apply side_put_other.
      * simpl. apply (ci_keys _ _ _ Hi _ _ He).
      * simpl. lia.
      * intros Ho Ha. destruct (Hnv Ho Ha).
      * intros k _. unfold zero. simpl. destruct (_ =? _); lia.
      * intros _ Hgd. rewrite side_put_put, side_put_same. by apply Hg.
    + eapply (token_write E cs _ _ to td).
      * done.
      * eapply (token_write E cs c _ from tf); [done|exact Hz|exact He|done| |done|done| | | | |].
        -- intros i Hn. rewrite side_put_put. by apply side_put_other.
        -- simpl. apply (ci_keys _ _ _ Hi _ _ He).
        -- simpl. lia.
        -- intros Ho Ha. destruct (Hnv Ho Ha).
        -- intros k _. instantiate (1 := fun k => if t_mint tf =? k then amount else 0). simpl. destruct (_ =? _); unfold zero; lia.
        -- intros _ Hgd. rewrite side_put_put, side_put_same. by apply Hg.
      * cbn [on put]. rewrite wput_other by done. exact He1.
      * done.
      * done.
      * done.
      * done.
      * simpl. apply (ci_keys _ _ _ Hi _ _ He1).
      * simpl. lia.
      * intros _ _. simpl. split; [done|]. intros _. lia.
      * intros k _. unfold zero. simpl. replace (t_mint td) with (t_mint tf) by congruence. destruct (_ =? _); lia.
      * intros _ Hgd. rewrite side_put_put. by apply (good_same E cs to td).
Qed.

Lemma out_mint tp mintk to auth amount c' : outside E native sg (OMintTo tp mintk to auth amount) c = Ok c' -> fine c'.
Proof.
  intros H. right. cbn [outside] in H. inv_all H. loads. bools. rename x into m, x0 into t. injection H as <-.
  pose proof (ts_range _ _ (ci_sane _ _ _ Hi) _ _ He0).
  match goal with Hs : auth ∈ sg |- _ => destruct (Hsg _ Hs) as [Hd _] end.
  assert (chain_with E cs (fun k => if decide (mintk = k) then amount else 0)
    (put mintk (Some (DMint (Mint (m_prog m) (m_supply m + amount) (m_decimals m) (m_authority m) (m_freeze m)))) c) /\
    kept E (on c) (on (put mintk (Some (DMint (Mint (m_prog m) (m_supply m + amount) (m_decimals m) (m_authority m) (m_freeze m)))) c)) /\
    same_atas (on c) (on (put mintk (Some (DMint (Mint (m_prog m) (m_supply m + amount) (m_decimals m) (m_authority m) (m_freeze m)))) c))) as Hf1.
  { eapply mint_write; [done|exact Hz|exact He|done|done| |].
    - intros a Ha Hp. exfalso. assert (a = auth) as -> by congruence. unfold derived in Hd. rewrite Hp, !orb_true_r in Hd. done.
    - intros k _. unfold zero. simpl. destruct (decide _); lia. }
  eapply two_steps; [exact Hf1|]. destruct Hf1 as [Hf1 _].
  eapply (token_write E cs _ _ to t); [done|exact Hf1| |done|done|done|done| | | | |].
  - cbn [on put]. rewrite wput_other by congruence. exact He0.
  - simpl. apply (ci_keys _ _ _ Hi _ _ He0).
  - simpl. lia.
  - intros _ _. simpl. split; [done|]. intros _. lia.
  - intros k _. unfold zero. simpl. destruct (Z.eqb_spec (t_mint t) k), (decide (mintk = k)); try lia; congruence.
  - intros _ Hgd. rewrite side_put_put. by apply (good_same E cs to t).
Qed.

Lemma out_burn tp k mintk auth amount c' : outside E native sg (OBurn tp k mintk auth amount) c = Ok c' -> fine c'.
Proof.
  intros H. cbn [outside] in H. repeat inv1 H. inv_ensure. loads. bools. rename x into m, x0 into t. injection H as <-.
  match goal with Hm : may_spend _ _ _ _ _ = Ok ?s |- _ => pose proof (spend_ok _ _ _ _ _ _ _ _ _ HE Hc Hi Hsg He0 Hm) as [?|[Hnv Hg]]; [by left|right]; rename s into sd end.
  pose proof (ts_range _ _ (ci_sane _ _ _ Hi) _ _ He0).
  set (m' := Mint (m_prog m) (m_supply m - amount) (m_decimals m) (m_authority m) (m_freeze m)).
  set (t' := with_amount t (t_amount t - amount)).
  assert (chain_with E cs (fun x => if decide (mintk = x) then - amount else 0) (put mintk (Some (DMint m')) c) /\
    kept E (on c) (on (put mintk (Some (DMint m')) c)) /\ same_atas (on c) (on (put mintk (Some (DMint m')) c))) as Hf1.
  { eapply mint_write; [done|exact Hz|exact He|done|done| |].
    - intros a Ha Hp _. simpl. split_and!; [done..|lia].
    - intros x _. unfold zero. simpl. destruct (decide _); lia. }
  eapply (two_steps _ (put k (Some (DToken t')) (put mintk (Some (DMint m')) (put_side k sd c)))); [exact Hf1|]. destruct Hf1 as [Hf1 _].
  eapply (token_write E cs _ _ k t t'); [done|exact Hf1| |done| |done|done| | | | |].
  - cbn [on put]. rewrite wput_other by congruence. exact He0.
  - intros i Hne. rewrite !side_put_put. by apply side_put_other.
  - simpl. apply (ci_keys _ _ _ Hi _ _ He0).
  - simpl. lia.
  - intros Ho Ha. destruct (Hnv Ho Ha).
  - intros x _. unfold zero. simpl. destruct (Z.eqb_spec (t_mint t) x), (decide (mintk = x)); try lia; congruence.
  - intros _ Hgd. rewrite !side_put_put, side_put_same. by apply Hg.
Qed.

(** A token account written with a signature of its owner. *)
Lemma owner_write k t t' s' : wdat (on c) !! k = Some (DToken t) -> t_owner t ∈ sg -> t_mint t' = t_mint t -> t_prog t' = t_prog t ->
  key_ok (t_owner t') -> 0 <= t_amount t' <= t_amount t ->
  chain_inv E cs (put k (Some (DToken t')) (put_side k s' c)) /\ others_step E (on c) (on (put k (Some (DToken t')) (put_side k s' c))).
Proof.
  intros Hk Hs Hm Hp Hko Hr. destruct (signed_ok _ _ _ Hsg Hs) as (Hd & Ho & Hok). pose proof (ts_range _ _ (ci_sane _ _ _ Hi) _ _ Hk).
  apply one_step. eapply (token_write E cs c _ k t t'); [done|exact Hz|exact Hk|done| |done|done|done| | | |].
  - intros i Hne. rewrite side_put_put. by apply side_put_other.
  - lia.
  - congruence.
  - intros m _. unfold zero. destruct (_ =? _); lia.
  - intros _ Hg. by eapply (good_signed E cs c).
Qed.
Lemma owner_side k t s' : wdat (on c) !! k = Some (DToken t) -> t_owner t ∈ sg ->
  chain_inv E cs (put_side k s' c) /\ others_step E (on c) (on (put_side k s' c)).
Proof.
  intros Hk Hs. destruct (signed_ok _ _ _ Hsg Hs) as (Hd & Ho & Hok). apply one_step.
  eapply side_write; [done|exact Hz|exact Hk|done| |].
  - intros i Hne. by apply side_put_other.
  - intros _ Hg. by eapply (good_signed E cs c).
Qed.
(** Only the amount or the frozen flag changes, and nothing decreases that matters. *)
Lemma free_write k t t' : wdat (on c) !! k = Some (DToken t) -> t_mint t' = t_mint t -> t_prog t' = t_prog t -> t_owner t' = t_owner t ->
  0 <= t_amount t' <= U64_MAX -> (plain E (t_mint t) = true -> t_amount t <= t_amount t') ->
  (pda_of E PLockup (t_mint t) = true -> t_amount t' <= t_amount t) ->
  chain_inv E cs (put k (Some (DToken t')) c) /\ others_step E (on c) (on (put k (Some (DToken t')) c)).
Proof.
  intros Hk Hm Hp Ho Hr Hpl Hl. apply one_step.
  eapply (token_write E cs c _ k t t'); [done|exact Hz|exact Hk|done|done|done|done| |done| | |].
  - rewrite Ho. apply (ci_keys _ _ _ Hi _ _ Hk).
  - intros _ _. split; [done|exact Hpl].
  - intros m Hm'. unfold zero. destruct (Z.eqb_spec (t_mint t) m) as [<-|]; [|lia]. specialize (Hl Hm'). lia.
  - intros _ Hg. rewrite side_put_put. by apply (good_same E cs k t).
Qed.
(** A mint written by a signer who is its authority, or any change but of the authority, the supply and the decimals. *)
Lemma mint_free k m m' : wdat (on c) !! k = Some (DMint m) -> m_supply m' = m_supply m -> m_prog m' = m_prog m -> m_decimals m' = m_decimals m ->
  (forall a, m_authority m = Some a -> pda_of E PMetadata a = true -> m_authority m' = Some a) ->
  chain_inv E cs (put k (Some (DMint m')) c) /\ others_step E (on c) (on (put k (Some (DMint m')) c)).
Proof.
  intros Hk Hs Hp Hdc Ha. apply one_step. eapply (mint_write E cs c _ k m m'); [done|exact Hz|exact Hk|done|done| |].
  - intros a H1 H2 _. split; [done|]. split; [done|]. split; [by apply Ha|lia].
  - intros x _. unfold zero. destruct (decide _); lia.
Qed.

Lemma lam_write k n : (forall d, wdat (on c) !! k = Some d -> owner_prog d = None) ->
  chain_with E cs zero (put_lam k n c) /\ kept E (on c) (on (put_lam k n c)) /\ same_atas (on c) (on (put_lam k n c)).
Proof.
  intros Hk. destruct Hz as [Z1 Z2 Z3]. split; [|split].
  - split; [|exact Z2|exact Z3]. destruct Z1 as [S1 S2]. by split.
  - assert (forall p, p = PLockup \/ p = PMerkle -> untouched E p (on c) (set_lam k n (on c))) as Hu.
    { intros p Hp. split; try done.
      - intros i d Hd Ho. split; [done|]. unfold lam, set_lam. simpl. destruct (decide (i = k)) as [->|Hne].
        + rewrite (Hk _ Hd) in Ho. discriminate Ho.
        + by rewrite lookup_insert_ne.
      - intros i t Hd _ _. exists t. by split_and!. }
    split; [apply Hu; by left|]. split; [apply Hu; by right|]. intros i m a Hm Ha Hp Hpl. exists m. split_and!; [done..|lia].
  - intros i t Ht. exists t. done.
Qed.

Lemma out_lamports k n c' : outside E native sg (OLamports k n) c = Ok c' -> chain_inv E cs c' /\ others_step E (on c) (on c').
Proof.
  intros H. cbn [outside] in H. inv_all H. injection H as <-. destruct Hi as [[S1 S2] S4 S5].
  assert (forall p, p = PLockup \/ p = PMerkle -> untouched E p (on c) (set_lam k n (on c))) as Hu.
  { intros p Hp. split; try done.
    - intros i d Hd Ho. split; [done|]. unfold lam, set_lam. simpl. destruct (decide (i = k)) as [->|Hne].
      + rewrite lookup_insert. rewrite Hd, Ho in He. bools. done.
      + by rewrite lookup_insert_ne.
    - intros i t Hd _ _. exists t. by split_and!. }
  split; [by split|]. split; [apply Hu; by left|apply Hu; by right| |by split| |done].
  - intros i m a Hm Ha Hp Hpl. exists m. split_and!; [done..|lia].
  - apply same_kept. intros i t Hit. exists t. split; [exact Hit|done].
Qed.
Lemma out_clock t c' : outside E native sg (OClock t) c = Ok c' -> chain_inv E cs c' /\ others_step E (on c) (on c').
Proof.
  intros H. cbn [outside] in H. injection H as <-. destruct Hi as [[S1 S2] S4 S5].
  destruct (kept_refl E (on c)) as ([A1 A2 A3 A4] & [B1 B2 B3 B4] & C). split; [by split|]. split; [by split|by split|exact C|by split| |done].
  apply same_kept. intros i x Hit. exists x. split; [exact Hit|done].
Qed.
End ops.

(** ** Everything outside *)

(** Whatever the other programs do keeps the invariant and is an [others_step], unless two owners have the same associated
    token account. *)
Lemma outside_step E native sg o cs c c' : env_ok E -> pda_of E PLockup native = false -> outsiders E sg -> c ∈ cs -> chain_inv E cs c ->
  outside E native sg o c = Ok c' -> ata_clash E cs \/ (chain_inv E cs c' /\ others_step E (on c) (on c')).
Proof.
  intros HE Hnat Hsg Hc Hi H. destruct o.
  - right. by eapply out_clock.
  - right. by eapply out_lamports.
  - (* foreign *) right. cbn [outside] in H. inv_all H. bools. injection H as <-. apply simple_write; [done|done|..].
    + intros x Hx. rewrite Hx in *. destruct x; try done.
    + intros x ->. destruct x; done.
    + intros Hn _. apply derived_not_ours. destruct (derived E k); [|done]. simpl in He0. rewrite orb_false_r in He0. bools. done.
    + intros t ->. done.
    + intros t ->. done.
  - (* Metaplex *) right. cbn [outside] in H. inv_all H. bools. injection H as <-. apply simple_write; [done|done|..].
    + intros x Hx. rewrite Hx in *. destruct x; try done.
    + intros x ->. destruct x; done.
    + intros Hn _. apply orb_prop in He0 as [Hw|Hm]; [by bools|]. unfold ours.
      destruct (pda_of E PLockup k) eqn:Hq1; [pose proof (eo_disjoint _ HE _ _ _ Hq1 Hm); done|].
      destruct (pda_of E PMerkle k) eqn:Hq2; [pose proof (eo_disjoint _ HE _ _ _ Hq2 Hm); done|]. done.
    + intros t ->. done.
    + intros t ->. done.
  - (* new mint *) right. cbn [outside] in H. inv_all H. bools. injection H as <-. apply simple_write; [done|done|..].
    + intros x Hx. congruence.
    + by intros x [= <-].
    + intros _ _. by apply derived_not_ours.
    + done.
    + by intros m [= <-].
  - (* new account *) right. cbn [outside] in H. inv_all H. bools. injection H as <-. apply simple_write; [done|done|..].
    + intros y Hx. congruence.
    + by intros y [= <-].
    + intros _ _. by apply derived_not_ours.
    + intros t [= <-]. simpl. split; [done|]. split; [by apply is_key_ok|]. split; [by apply is_key_ok|]. intros Hp.
      match goal with Hd : derived E k = false |- _ => unfold derived in Hd; rewrite Hp, orb_true_r in Hd; done end.
    + done.
  - (* new associated account *) right. cbn [outside] in H. repeat inv1 H. inv_ensure. bools. subst. injection H as <-.
    destruct (ata_pda _ _ _ _ _ HE He) as [Hp Hk]. apply simple_write; [done|done|..].
    + intros y Hx. congruence.
    + by intros y [= <-].
    + intros _ _. unfold ours.
      destruct (pda_of E PLockup x) eqn:Hq1; [pose proof (eo_disjoint _ HE _ _ _ Hq1 Hp); done|].
      destruct (pda_of E PMerkle x) eqn:Hq2; [pose proof (eo_disjoint _ HE _ _ _ Hq2 Hp); done|]. done.
    + intros t [= <-]. simpl. split; [done|]. split; [by apply is_key_ok|]. split; [by apply is_key_ok|]. intros _. exact He.
    + done.
  - by eapply out_transfer.
  - right. cbn [outside] in H. inv_all H. loads. bools. injection H as <-. subst. by eapply owner_side.
  - right. cbn [outside] in H. inv_all H. loads. bools. injection H as <-. subst. by eapply owner_side.
  - by eapply out_mint.
  - by eapply out_burn.
  - (* freeze *) right. cbn [outside] in H. inv_all H. loads. bools. injection H as <-. eapply free_write; [done|done|exact He|done..| | |]; simpl.
    + apply (ts_range _ _ (ci_sane _ _ _ Hi) _ _ He).
    + done.
    + done.
  - (* owner *) right. cbn [outside] in H. inv_all H. loads. bools. injection H as <-. subst. eapply owner_write; [done..|exact He|done|done|done| |]; simpl.
    + by apply is_key_ok.
    + pose proof (ts_range _ _ (ci_sane _ _ _ Hi) _ _ He). lia.
  - (* close authority *) cbn [outside] in H. inv_all H. loads. bools. injection H as <-. right. apply one_step; [done..|].
    eapply side_write; [done|by apply chain_with_zero|exact He|done| |].
    + intros i Hne. by apply side_put_other.
    + intros _ Hg. apply orb_prop in He1 as [Ho|Hcl]; bools.
      * subst. destruct (signed_ok _ _ _ Hsg He0) as (Hd & _ & Hok). by eapply (good_signed E cs c).
      * eapply good_sided; [exact Hg| |done|done]. intros Hn. rewrite Hn in Hcl. done.
  - (* mint authority *) right. cbn [outside] in H. inv_all H. loads. bools. injection H as <-. eapply mint_free; [done..|exact He|done|done|done|].
    intros a Ha Hp. exfalso. destruct (Hsg _ He0) as [Hd _]. assert (a = auth) as -> by congruence.
    unfold derived in Hd. rewrite Hp, !orb_true_r in Hd. done.
  - right. cbn [outside] in H. inv_all H. loads. bools. injection H as <-. eapply mint_free; [done..|exact He|done|done|done|]. done.
  - (* close *) cbn [outside] in H. inv_all H. loads. bools. injection H as <-.
    destruct (vault_side _ _ _ _ _ HE Hc Hi He) as [?|Hv]; [by left|right].
    set (c1 := put_lam k (lam (on c) k + (if t_mint x =? native then t_amount x else 0)) c).
    assert (chain_with E cs zero c1 /\ kept E (on c) (on c1) /\ same_atas (on c) (on c1)) as Hf1.
    { apply lam_write; [exact Hi|]. intros d Hd. rewrite He in Hd. injection Hd as <-. done. }
    eapply two_steps; [exact Hf1|]. apply and_third; [apply same_atas_put; discriminate|]. destruct Hf1 as [Hf1 _].
    assert (wdat (on c1) !! k = Some (DToken x)) as He' by exact He.
    eapply (write_step E cs c1 _ k None zero); [done|exact Hf1|done| | | | | | | | |]; rewrite ?He'.
    + intros i Hne. rewrite side_put_put. by apply side_put_other.
    + by intros y [= <-].
    + done.
    + done.
    + intros t [= <-] Ho Ha. exfalso. rewrite (Hv Ho Ha) in He2. simpl in He2. bools. subst.
      destruct (signed_ok _ _ _ Hsg He0) as (_ & Hf & _). congruence.
    + done.
    + done.
    + intros m _. pose proof (ts_range _ _ (ci_sane _ _ _ Hi) _ _ He). cbn [opt_tok tok_of sup_of]. unfold zero. clear - H; destruct (t_mint x =? m), (decide (k = m)); lia.
    + rewrite side_put_put. by apply side_put_same.
  - (* close a mint *) right. cbn [outside] in H. inv_all H. loads. bools. injection H as <-. apply one_step; [done..|]. apply and_third; [apply same_atas_put; discriminate|].
    eapply (write_step E cs c _ k None zero); [done|by apply chain_with_zero|done| | | | | | | | |]; rewrite ?He.
    + done.
    + by intros y [= <-].
    + done.
    + done.
    + done.
    + intros m a [= <-] _ _ Hpl. congruence.
    + done.
    + intros m Hm. destruct (decide _) as [->|]; [|unfold zero; simpl; lia]. rewrite (eo_nft _ HE _ Hm) in *. done.
    + rewrite side_put_put. pose proof (ci_side _ _ _ Hi k) as Hs. by rewrite He in Hs.
  - (* native *) right. cbn [outside] in H. inv_all H. loads. bools. injection H as <-. pose proof (ts_range _ _ (ci_sane _ _ _ Hi) _ _ He).
    set (c1 := put_lam k (lam (on c) k - n) c).
    assert (chain_with E cs zero c1 /\ kept E (on c) (on c1) /\ same_atas (on c) (on c1)) as Hf1.
    { apply lam_write; [exact Hi|]. intros d Hd. rewrite He in Hd. injection Hd as <-. done. }
    eapply two_steps; [exact Hf1|]. destruct Hf1 as [Hf1 _].
    eapply (token_write E cs c1 _ k x (with_amount x (t_amount x + n))); [done|exact Hf1|exact He|done|done|done|done| | | | |]; simpl.
    + apply (ci_keys _ _ _ Hi _ _ He).
    + lia.
    + intros _ _. split; [done|]. intros _. lia.
    + intros m Hm. destruct (Z.eqb_spec (t_mint x) m) as [<-|]; [congruence|unfold zero; lia].
    + intros _ Hg. rewrite side_put_put. by apply (good_same E cs k x).
  - (* extensions *) right. cbn [outside] in H. inv_all H. loads. bools. injection H as <-.
    eapply free_write; [done|done|exact He|done..| | |]; simpl; [lia|congruence|]. intros Hp. rewrite (eo_nft _ HE _ Hp) in *. done.
Qed.

(** ** The two programs *)

Lemma program_inv E p S cs c w' : frame E p S (on c) w' -> keys_sane w' -> chain_inv E cs c ->
  (forall k t, wdat w' !! k = Some (DToken t) -> known_or_ata E (on c) k t) -> chain_inv E cs (Chain w' (sides c)).
Proof.
  intros F Hk [I1 I2 I3] Ha. split; cbn [on].
  - exact (fr_sane _ _ _ _ _ F I1).
  - exact Hk.
  - intros k. change (side_of (Chain w' (sides c)) k) with (side_of c k). specialize (I3 k).
    destruct (wdat (on c) !! k) as [d|] eqn:Hd.
    + destruct (is_token d) eqn:Ht.
      * destruct d; try discriminate. destruct (fr_tokens _ _ _ _ _ F _ _ Hd) as (t' & -> & (H1 & H2 & H3 & _) & _).
        intros Hp. eapply good_same; [exact H3|exact H2|exact H1|exact (I3 Hp)].
      * assert (side_of c k = no_side) as Hs by (destruct d; try discriminate Ht; exact I3).
        destruct (wdat w' !! k) as [[]|] eqn:Hd'; try exact Hs. intros _. destruct (Ha _ _ Hd') as [(t0 & H0)|H0].
        -- rewrite Hd in H0. injection H0 as ->. discriminate.
        -- left. split; [exact H0|exact Hs].
    + destruct (wdat w' !! k) as [[]|] eqn:Hd'; try exact I3. intros _. destruct (Ha _ _ Hd') as [(t0 & H0)|H0].
      * rewrite Hd in H0. discriminate.
      * left. split; [exact H0|exact I3].
Qed.

(** ** Whole chains *)
Lemma cstep_inv E native cs c a evs c' : env_ok E -> pda_of E PLockup native = false -> c ∈ cs -> chain_inv E cs c -> cstep E native c a evs c' ->
  ata_clash E cs \/ (chain_inv E cs c' /\ step E any_clock (on c) a evs (on c')).
Proof.
  intros HE Hn Hc Hi Hst. destruct Hst as [sg ix evs w' Hsg Hx|sg ix evs w' Hsg Hx|sg o c' Hsg Ho].
  - right. split; [|by constructor]. destruct (lockup_frame _ _ _ _ _ _ HE Hsg Hx) as (S & F & _).
    apply lockup_exec_effect in Hx as [Hok Heff]. eapply program_inv; [exact F| |exact Hi|exact (lockup_ata _ _ _ _ _ _ Heff)].
    exact (lockup_keys _ _ _ _ _ _ HE Hok Heff (ci_keys _ _ _ Hi)).
  - right. split; [|by constructor]. destruct (merkle_frame _ _ _ _ _ _ HE Hsg Hx) as (S & F & _).
    apply merkle_exec_effect in Hx as [Hok Heff]. eapply program_inv; [exact F| |exact Hi|exact (merkle_ata _ _ _ _ _ _ Heff)].
    exact (merkle_keys _ _ _ _ _ _ HE Hok Heff (ci_keys _ _ _ Hi)).
  - destruct (outside_step _ _ _ _ _ _ _ HE Hn Hsg Hc Hi Ho) as [?|[Hi' Hos]]; [by left|right]. split; [done|]. by constructor.
Qed.
Lemma clash_mono E cs cs' : ata_clash E cs -> ata_clash E (cs ++ cs').
Proof.
  intros (c1 & c2 & k & t1 & t2 & H1 & H2 & H). exists c1, c2, k, t1, t2. split; [apply elem_of_app; by left|]. split; [apply elem_of_app; by left|]. exact H.
Qed.
Lemma inv_mono E cs cs' c : chain_inv E cs c -> chain_inv E (cs ++ cs') c.
Proof.
  intros [I1 I2 I3]. split; [exact I1|exact I2|]. intros k. specialize (I3 k). destruct (wdat (on c) !! k) as [[]|]; try exact I3.
  intros Hp. destruct (I3 Hp) as [H|(c1 & t1 & H1 & H2)]; [left; exact H|right]. exists c1, t1. split; [apply elem_of_app; by left|exact H2].
Qed.

Lemma empty_genesis E cs l t : genesis E (on (empty_chain l t)) /\ chain_inv E cs (empty_chain l t).
Proof.
  assert (token_sane E (on (empty_chain l t))) as Hs.
  { split.
    - intros k x. cbn. rewrite lookup_empty. discriminate.
    - intros m _. unfold total_balance, supply. cbn. rewrite map_fold_empty, lookup_empty. lia. }
  assert (keys_sane (on (empty_chain l t))) as Hk by (intros k x; cbn; rewrite lookup_empty; discriminate).
  split; split; try done.
Qed.
Lemma crun_last E native c0 tr cs c : crun E native c0 tr cs c -> c ∈ cs.
Proof. intros Hp. destruct Hp; [by apply elem_of_list_singleton|]. apply elem_of_app. right. by apply elem_of_list_singleton. Qed.

Lemma crun_inv E native l t tr cs c : env_ok E -> pda_of E PLockup native = false -> crun E native (empty_chain l t) tr cs c ->
  ata_clash E cs \/ (chain_inv E cs c /\ passed E any_clock (on (empty_chain l t)) tr (map on cs) (on c)).
Proof.
  intros HE Hn Hr. induction Hr as [|tr cs c a evs c' Hr IH Hst]; [right; split; [apply empty_genesis|constructor]|].
  destruct IH as [?|[Hi IH]]; [left; by apply clash_mono|].
  destruct (cstep_inv _ _ _ _ _ _ _ HE Hn (crun_last _ _ _ _ _ _ Hr) Hi Hst) as [?|[Hi' Hs]]; [left; by apply clash_mono|right].
  split; [by apply inv_mono|]. rewrite map_app. by econstructor.
Qed.

(** Every run of the whole chain from the empty chain is a history: all that is proved of histories and reachable worlds
    holds of it, unless two owners which an account had on the way have the same associated token account. *)
Theorem C73_history E native l t tr cs c : env_ok E -> pda_of E PLockup native = false -> crun E native (empty_chain l t) tr cs c ->
  ata_clash E cs \/ history_via E any_clock tr (map on cs) (on c).
Proof.
  intros HE Hn Hr. destruct (crun_inv _ _ _ _ _ _ _ HE Hn Hr) as [?|[_ H]]; [by left|right].
  exists (on (empty_chain l t)). split; [apply (empty_genesis E []) |exact H].
Qed.

(** ** What this says about money *)

(** Belongs to a stream or a campaign: its associated account of the given token. *)
Definition is_vault (E : env) (w : world) (v : key) : Prop :=
  exists t d, wdat w !! v = Some (DToken t) /\ wdat w !! t_owner t = Some d /\ ((exists s, d = DStream s) \/ (exists c, d = DCampaign c)) /\
    ata_address E (t_owner t) (t_mint t) (t_prog t) = Ok v.

Lemma vault_ours E w v : env_ok E -> reachable E w -> is_vault E w v -> exists t, wdat w !! v = Some (DToken t) /\ ours E (t_owner t) = true /\
  ata_address E (t_owner t) (t_mint t) (t_prog t) = Ok v.
Proof.
  intros HE Hr (t & d & Hv & Hd & Hor & Ha). exists t. split; [exact Hv|]. split; [|exact Ha]. pose proof (reachable_inv _ _ HE Hr) as Hi. unfold ours.
  destruct Hor as [[s ->]|[cc ->]].
  - destruct (si_nft _ _ _ _ (li_stream _ _ (inv_lockup _ _ Hi) _ _ Hd)) as (nft & b & m & au & _ & Hf & _).
    apply fpa_pda in Hf as [-> _]; [done|exact HE].
  - pose proof (ci_addr _ _ _ _ (mi_campaign _ _ (inv_merkle _ _ Hi) _ _ Hd)) as Hf.
    apply fpa_pda in Hf as [-> _]; [apply orb_true_r|exact HE].
Qed.

Lemma crun_reach E native l t tr cs c : env_ok E -> pda_of E PLockup native = false -> crun E native (empty_chain l t) tr cs c ->
  ata_clash E cs \/ (chain_inv E cs c /\ reachable E (on c)).
Proof.
  intros HE Hn Hr. destruct (crun_inv _ _ _ _ _ _ _ HE Hn Hr) as [?|[Hi Hp]]; [by left|right]. split; [exact Hi|].
  exists tr. exists (on (empty_chain l t)). split; [apply (empty_genesis E [])|exact (passed_run _ _ _ _ _ _ Hp)].
Qed.

(** Nothing the rest of the chain does, whoever signs, writes, creates or drains an account of the two programs. *)
Theorem C73_accounts_locked E native l t tr cs c sg o c' :
  env_ok E -> pda_of E PLockup native = false -> crun E native (empty_chain l t) tr cs c ->
  outsiders E sg -> outside E native sg o c = Ok c' ->
  ata_clash E cs \/
  ((forall k d, wdat (on c) !! k = Some d -> owner_prog d <> None -> wdat (on c') !! k = Some d /\ lam (on c) k <= lam (on c') k) /\
   (forall k d, wdat (on c') !! k = Some d -> owner_prog d <> None -> wdat (on c) !! k = Some d)).
Proof.
  intros HE Hn Hr Hsg Ho. destruct (crun_reach _ _ _ _ _ _ _ HE Hn Hr) as [?|[Hi Hp]]; [by left|].
  destruct (outside_step _ _ _ _ _ _ _ HE Hn Hsg (crun_last _ _ _ _ _ _ Hr) Hi Ho) as [?|[_ [U1 U2 _ _ _ _]]]; [by left|right].
  split; intros k d Hk Hd.
  - destruct (owner_prog d) as [[]|] eqn:Hq; try done; [by apply (u_data _ _ _ _ U1)|by apply (u_data _ _ _ _ U2)|destruct d; discriminate..].
  - destruct (owner_prog d) as [[]|] eqn:Hq; try done; [by apply (u_new _ _ _ _ U1)|by apply (u_new _ _ _ _ U2)|destruct d; discriminate..].
Qed.

(** A vault has neither delegate nor close authority, and nothing the rest of the chain does, whoever signs, lowers its
    balance, changes its owner or closes it. *)
Theorem C73_vaults_locked E native l t tr cs c sg o c' v :
  env_ok E -> pda_of E PLockup native = false -> crun E native (empty_chain l t) tr cs c -> is_vault E (on c) v ->
  outsiders E sg -> outside E native sg o c = Ok c' ->
  ata_clash E cs \/
  (side_of c v = no_side /\
   exists x x', wdat (on c) !! v = Some (DToken x) /\ wdat (on c') !! v = Some (DToken x') /\
     t_owner x' = t_owner x /\ t_mint x' = t_mint x /\ t_prog x' = t_prog x /\
     (plain E (t_mint x) = true -> t_amount x <= t_amount x')).
Proof.
  intros HE Hn Hr Hv Hsg Ho. destruct (crun_reach _ _ _ _ _ _ _ HE Hn Hr) as [?|[Hi Hp]]; [by left|].
  pose proof (crun_last _ _ _ _ _ _ Hr) as Hc. destruct (vault_ours _ _ _ HE Hp Hv) as (x & Hx & Hou & Ha).
  destruct (outside_step _ _ _ _ _ _ _ HE Hn Hsg Hc Hi Ho) as [?|[_ [U1 U2 _ _ _ _]]]; [by left|].
  destruct (vault_side _ _ _ _ _ HE Hc Hi Hx) as [?|Hs]; [by left|right]. split; [exact (Hs Hou Ha)|].
  unfold ours in Hou. destruct (pda_of E PLockup (t_owner x)) eqn:Hq.
  - destruct (u_vault _ _ _ _ U1 _ _ Hx Hq Ha) as (x' & HH1 & HH2 & HH3 & HH4 & HH5). exists x, x'. split; [exact Hx|]. split; [exact HH1|].
    split; [exact HH4|]. split; [exact HH3|]. split; [exact HH2|exact HH5].
  - destruct (u_vault _ _ _ _ U2 _ _ Hx Hou Ha) as (x' & HH1 & HH2 & HH3 & HH4 & HH5). exists x, x'. split; [exact Hx|]. split; [exact HH1|].
    split; [exact HH4|]. split; [exact HH3|]. split; [exact HH2|exact HH5].
Qed.

(** Solvency on the concrete chain: whatever the token programs, Metaplex, the System program and everybody else did. *)
Theorem C73_solvent E native l t tr cs c k s :
  env_ok E -> pda_of E PLockup native = false -> crun E native (empty_chain l t) tr cs c -> wdat (on c) !! k = Some (DStream s) ->
  ata_clash E cs \/
  exists v, vault_of E (on c) k s v /\
    (plain E (s_mint s) = true -> deposited (s_amounts s) - withdrawn (s_amounts s) - refunded (s_amounts s) <= balance (on c) v).
Proof.
  intros HE Hn Hr Hk. destruct (crun_reach _ _ _ _ _ _ _ HE Hn Hr) as [?|[Hi Hp]]; [by left|right]. exact (C08_solvent _ _ _ _ HE Hp Hk).
Qed.

(** ** A run of the whole chain *)
Inductive ccmd := XL (sg : list key) (ix : lockup_ix) | XM (sg : list key) (ix : merkle_ix) | XO (sg : list key) (o : outside_op).
Definition outsiders_check (E : env) (sg : list key) : bool := forallb (fun k => negb (derived E k) && is_key k) sg.
Lemma outsiders_from_check E sg : outsiders_check E sg = true -> outsiders E sg.
Proof.
  intros H k Hk. unfold outsiders_check in H. rewrite forallb_forall in H. apply elem_of_list_In in Hk. apply H in Hk.
  apply andb_prop in Hk as [H1 H2]. split; [by destruct (derived E k)|by apply is_key_ok].
Qed.
Definition cdo (E : env) (native : key) (x : ccmd) (c : chain) : option (action * list event * chain) :=
  match x with
  | XL sg ix => match lockup_exec E sg ix (on c) with
                | Ok (w', evs) => if signers_check E sg then Some (ALockup sg ix, evs, Chain w' (sides c)) else None | Err _ => None end
  | XM sg ix => match merkle_exec E sg ix (on c) with
                | Ok (w', evs) => if signers_check E sg then Some (AMerkle sg ix, evs, Chain w' (sides c)) else None | Err _ => None end
  | XO sg o => match outside E native sg o c with
               | Ok c' => if outsiders_check E sg then Some (AOthers, [], c') else None | Err _ => None end
  end.
Fixpoint cscript (E : env) (native : key) (xs : list ccmd) (acc : trace * list chain * chain) : option (trace * list chain * chain) :=
  match xs with
  | [] => Some acc
  | x :: xs' => let '(tr, cs, c) := acc in
      match cdo E native x c with Some (a, evs, c') => cscript E native xs' (tr ++ [(a, evs)], cs ++ [c'], c') | None => None end
  end.
Lemma cdo_step E native x c a evs c' : cdo E native x c = Some (a, evs, c') -> cstep E native c a evs c'.
Proof.
  destruct x as [sg ix|sg ix|sg o]; simpl; intros H.
  - destruct (lockup_exec E sg ix (on c)) as [[w' es]|] eqn:Hx; [|discriminate]. destruct (signers_check E sg) eqn:Hs; [|discriminate].
    injection H as <- <- <-. constructor; [by apply signers_from_check|exact Hx].
  - destruct (merkle_exec E sg ix (on c)) as [[w' es]|] eqn:Hx; [|discriminate]. destruct (signers_check E sg) eqn:Hs; [|discriminate].
    injection H as <- <- <-. constructor; [by apply signers_from_check|exact Hx].
  - destruct (outside E native sg o c) as [c1|] eqn:Hx; [|discriminate]. destruct (outsiders_check E sg) eqn:Hs; [|discriminate].
    injection H as <- <- <-. econstructor; [by apply outsiders_from_check|exact Hx].
Qed.
Lemma cscript_run E native c0 xs tr cs c tr' cs' c' : crun E native c0 tr cs c -> cscript E native xs (tr, cs, c) = Some (tr', cs', c') ->
  crun E native c0 tr' cs' c'.
Proof.
  revert tr cs c. induction xs as [|x xs IH]; intros tr cs c Hr H; simpl in H; [by injection H as <- <- <-|].
  destruct (cdo E native x c) as [[[a evs] c1]|] eqn:Hx; [|discriminate]. eapply IH; [|exact H]. econstructor; [exact Hr|exact (cdo_step _ _ _ _ _ _ _ Hx)].
Qed.

(** Token accounts of the chains with their addresses; no address with two owners it can have been derived for. *)
Definition atas (E : env) (cs : list chain) : list (key * tokacc) :=
  flat_map (fun c => flat_map (fun '(k, d) => match d with
     | DToken t => match ata_address E (t_owner t) (t_mint t) (t_prog t) with Ok k' => if k' =? k then [(k, t)] else [] | Err _ => [] end
     | _ => [] end) (map_to_list (wdat (on c)))) cs.
Definition clash_free (E : env) (cs : list chain) : bool :=
  let l := atas E cs in forallb (fun '(k1, t1) => forallb (fun '(k2, t2) => negb (k1 =? k2) || (t_owner t1 =? t_owner t2)) l) l.
Lemma atas_in E cs c k t : c ∈ cs -> wdat (on c) !! k = Some (DToken t) -> ata_address E (t_owner t) (t_mint t) (t_prog t) = Ok k -> In (k, t) (atas E cs).
Proof.
  intros Hc Hk Ha. unfold atas. apply in_flat_map. exists c. split; [by apply elem_of_list_In|]. apply in_flat_map. exists (k, DToken t).
  split; [apply elem_of_list_In, elem_of_map_to_list; exact Hk|]. rewrite Ha, Z.eqb_refl. by left.
Qed.
Lemma clash_free_ok E cs : clash_free E cs = true -> ~ ata_clash E cs.
Proof.
  intros H (c1 & c2 & k & t1 & t2 & H1 & H2 & K1 & K2 & _ & _ & Hne & A1 & A2). unfold clash_free in H.
  rewrite forallb_forall in H. specialize (H _ (atas_in _ _ _ _ _ H1 K1 A1)). cbn beta iota in H. rewrite forallb_forall in H.
  specialize (H _ (atas_in _ _ _ _ _ H2 K2 A2)). cbn beta iota in H. rewrite Z.eqb_refl in H. simpl in H. by apply Z.eqb_eq in H.
Qed.

Definition kNative : key := 7007.
Definition aOther : key := ata kOther kToken SplToken.
Definition aSender : key := ata kSender kToken SplToken.
(** From the empty chain: a token is minted, Lockup is initialized, two streams are created, somebody else gets tokens, is
    made a delegate of the sender's account, donates to the vault; the recipient withdraws. *)
Definition cscript1 : list ccmd :=
  [XO [] (OClock 1000); XO [] (OForeign kFeed (Some feed0));
   XO [kToken] (OInitMint kToken SplToken 6 (Some kOther) None);
   XO [] (OCreateAta aSender SplToken kToken kSender false);
   XO [] (OCreateAta aOther SplToken kToken kOther false);
   XO [kOther] (OMintTo SplToken kToken aSender kOther 100000);
   XO [kOther] (OSetMintAuth kToken kOther None);
   XL [kOther] (LInitialize init_accs kCollector kOracle kFeed);
   XL [kSender] (LCreateTs (create_for 1) dep1);
   XL [kSender] (LCreateDur (create_for 2) dur2);
   XO [kSender] (OApprove aSender kSender kOther 700);
   XO [kOther] (OTransfer SplToken aSender aOther kOther kToken 600);
   XO [kOther] (OTransfer SplToken aOther (kVault kSender 1) kOther kToken 500);
   XO [] (OClock 1400);
   XL [kRecipient] (LWithdraw (withdraw_to 1 kRecipient) 150)].
Definition lam0 : gmap key Z := list_to_map [(kSender, 10000000000); (kRecipient, 10000000000); (kOther, 10000000000)].
Definition crun1 : option (trace * list chain * chain) := cscript E0 kNative cscript1 ([], [empty_chain lam0 0], empty_chain lam0 0).

Definition wallets : list key := [kSender; kRecipient; kOther].
(** Attempts on the vault of stream 1 by a transfer, a burn, a new owner, a delegate or closing, and the delegate's overdraft. *)
Definition attempts : list outside_op :=
  [OTransfer SplToken (kVault kSender 1) aOther kOther kToken 1; OTransfer SplToken (kVault kSender 1) aSender kSender kToken 1;
   OBurn SplToken (kVault kSender 1) kToken kSender 1; OSetOwner (kVault kSender 1) kSender kSender;
   OApprove (kVault kSender 1) kSender kSender 1; OClose (kVault kSender 1) kSender; OSetCloser (kVault kSender 1) kSender (Some kSender);
   OTransfer SplToken aSender aOther kOther kToken 101].
Definition crun1_check (x : option (trace * list chain * chain)) : bool :=
  match x with
  | Some (tr, cs, c) => clash_free E0 cs &&
      match wdat (on c) !! kVault kSender 1 with
      | Some (DToken t) => (t_owner t =? kStream kSender 1) && (t_amount t =? 1350) &&
          match ata_address E0 (t_owner t) (t_mint t) (t_prog t) with Ok v => v =? kVault kSender 1 | Err _ => false end
      | _ => false end &&
      match wdat (on c) !! kStream kSender 1 with Some (DStream _) => true | _ => false end &&
      match side_of c aSender with Side (Some (d, n)) None => (d =? kOther) && (n =? 100) | _ => false end &&
      forallb (fun o => negb (is_ok (outside E0 kNative wallets o c))) attempts &&
      is_ok (outside E0 kNative wallets (OTransfer SplToken aSender aOther kOther kToken 100) c)
  | None => false
  end.
Lemma crun1_checked : crun1_check crun1 = true.
Proof. vm_compute. reflexivity. Qed.

(** The run meets the hypotheses, two owners never share an account, and the attempts on the vault (which holds 850 of the
    deposit and the donation) fail although all the wallets sign. *)
Example C73_example : exists tr cs c,
  crun E0 kNative (empty_chain lam0 0) tr cs c /\ pda_of E0 PLockup kNative = false /\ ~ ata_clash E0 cs /\ outsiders E0 wallets /\
  is_vault E0 (on c) (kVault kSender 1) /\ balance (on c) (kVault kSender 1) = 1350 /\
  side_of c aSender = Side (Some (kOther, 100)) None /\
  (forall o, In o attempts -> is_ok (outside E0 kNative wallets o c) = false) /\
  exists c', outside E0 kNative wallets (OTransfer SplToken aSender aOther kOther kToken 100) c = Ok c'.
Proof.
  pose proof crun1_checked as H. assert (crun1 = cscript E0 kNative cscript1 ([], [empty_chain lam0 0], empty_chain lam0 0)) as Hrun by reflexivity.
  revert H Hrun. generalize crun1. intros [[[tr cs] c]|] H; [|discriminate H]. unfold crun1_check in H. intros Hrun.
  apply andb_prop in H as [[[[[HA HB]%andb_prop HC]%andb_prop HD]%andb_prop HE]%andb_prop HF].
  exists tr, cs, c. split; [exact (cscript_run _ _ _ _ _ _ _ _ _ _ (crun_nil _ _ _) (eq_sym Hrun))|].
  split; [vm_compute; reflexivity|]. split; [exact (clash_free_ok _ _ HA)|]. split; [apply outsiders_from_check; vm_compute; reflexivity|].
  destruct (wdat (on c) !! kVault kSender 1) as [[| | | | | | |t| | | |]|] eqn:Hv; try discriminate HB.
  apply andb_prop in HB as [[Ho%Z.eqb_eq Ham%Z.eqb_eq]%andb_prop Hata].
  destruct (ata_address E0 (t_owner t) (t_mint t) (t_prog t)) as [v|] eqn:Hat; [|discriminate Hata]. apply Z.eqb_eq in Hata. rewrite Hata in Hat.
  destruct (wdat (on c) !! kStream kSender 1) as [[]|] eqn:Hs; try discriminate HC.
  split; [eexists t, _; split; [exact Hv|]; split; [rewrite Ho; exact Hs|]; split; [left; eexists; reflexivity|exact Hat]|].
  split; [unfold balance; rewrite Hv; exact Ham|].
  destruct (side_of c aSender) as [[[d n]|] [|]]; try discriminate HD. apply andb_prop in HD as [Hd%Z.eqb_eq Hn%Z.eqb_eq].
  split; [rewrite Hd, Hn; reflexivity|]. split.
  - intros o Hin. rewrite forallb_forall in HE. specialize (HE _ Hin). cbn beta in HE. apply negb_true_iff in HE. exact HE.
  - clear - HF. revert HF. generalize (outside E0 kNative wallets (OTransfer SplToken aSender aOther kOther kToken 100) c). intros [c'|e] HF; [|discriminate HF]. exists c'. reflexivity.
Qed.

Print Assumptions C73_history.
Print Assumptions C73_accounts_locked.
Print Assumptions C73_vaults_locked.
Print Assumptions C73_solvent.
