(** C66: every instruction has one exact bill in lamports. C67: the accounts of the programs stay rent-exempt. *)
From Verif Require Export PropLocal PropClaim PropCreateLive PropTree.

(** ** Statement *)

(** [payer] creates the accounts [l] (address and size in bytes): to each the rent minimum, less what is already there;
    nothing for an account that exists. *)
Definition rents (E : env) (w : world) (payer : key) (l : list (key * Z)) : list (key * key * Z) :=
  map (fun '(k, size) => (payer, k, rent_due E w k size)) l.
(** Sizes: mint 82, token account 165 (Token-2022: 170 and the space that the extensions of the mint
    need), Metaplex metadata 607 and edition 282; with the discriminator,
    treasury 105, collection data 17, stream 156, campaign 228, receipt 8. *)
Definition token_size (E : env) (mint : key) (tp : tprog) : Z :=
  match tp with SplToken => 165 | Token2022 => if plain E mint then 170 else 170 + ext_space E mint end.
Definition opens (E : env) (i : any_ix) : list (key * Z) :=
  match i with
  | IL (LInitialize a _ _ _) => [(ia_treasury a, 105); (ia_nft_collection_data a, 17); (ia_mint a, 82);
      (ia_ata a, token_size E (ia_mint a) (ia_nft_tp a)); (ia_edition a, 282)]
  | IL (LCreateTs a _) | IL (LCreateDur a _) => [(ca_nft_mint a, 82); (ca_recipient_nft_ata a, token_size E (ca_nft_mint a) (ca_nft_tp a));
      (ca_stream a, 156); (ca_vault a, token_size E (ca_deposit_mint a) (ca_deposit_tp a)); (ca_edition a, 282)]
  | IL (LRenounce _) | IL (LCollectFees _) | IM (MCollectFees _) => []
  | IL (LCancel a) => [(xa_sender_ata a, token_size E (xa_mint a) (xa_tp a))]
  | IL (LWithdraw a _) | IL (LWithdrawMax a) => [(wa_dest a, token_size E (wa_mint a) (wa_tp a))]
  | IM (MInitialize _ t _ _ _) => [(t, 105)]
  | IM (MCreateCampaign a _) => [(na_campaign a, 228); (na_vault a, token_size E (na_mint a) (na_tp a))]
  | IM (MClaim a _ _ _) => [(la_recipient_ata a, token_size E (la_mint a) (la_tp a)); (la_receipt a, 8)]
  | IM (MClawback a _) => [(ba_recipient_ata a, token_size E (ba_mint a) (ba_tp a))]
  end.
(** The metadata account of a new NFT: Metaplex takes its rent and its fee, whatever it holds already. *)
Definition metadata_made (i : any_ix) : list (key * Z) :=
  match i with
  | IL (LInitialize a _ _ _) => [(ia_metadata a, 607)]
  | IL (LCreateTs a _) | IL (LCreateDur a _) => [(ca_metadata a, 607)]
  | _ => []
  end.
Definition levies (E : env) (payer : key) (l : list (key * Z)) : list (key * key * Z) :=
  map (fun '(k, size) => (payer, k, rent_min E size + md_fee E)) l.
Definition creates (E : env) (i : any_ix) : list (key * Z) := opens E i ++ metadata_made i.
(** Who pays for the accounts and the fee. *)
Definition payer_of (i : any_ix) : key :=
  match i with
  | IL (LInitialize a _ _ _) => ia_initializer a
  | IL (LCreateTs a _) | IL (LCreateDur a _) => ca_creator a
  | IL (LRenounce a) => ra_sender a
  | IL (LCancel a) => xa_sender a
  | IL (LWithdraw a _) | IL (LWithdrawMax a) => wa_signer a
  | IL (LCollectFees a) | IM (MCollectFees a) => fa_collector a
  | IM (MInitialize i _ _ _ _) => i
  | IM (MCreateCampaign a _) => na_creator a
  | IM (MClaim a _ _ _) => la_claimer a
  | IM (MClawback a _) => ba_creator a
  end.
(** The fee, as quoted by the fee views in the same state, and where it goes. *)
Definition fee_quote (E : env) (i : any_ix) (w : world) : res Z :=
  match i with
  | IL (LWithdraw a _) | IL (LWithdrawMax a) => withdrawal_fee_in_lamports E (wa_treasury a) (wa_chainlink a) (wa_feed a) w
  | IM (MClaim a _ _ _) => claim_fee_in_lamports E (la_treasury a) (la_chainlink a) (la_feed a) w
  | _ => Ok 0
  end.
Definition fee_paid (i : any_ix) (fee : Z) : list (key * key * Z) :=
  match i with
  | IL (LWithdraw a _) | IL (LWithdrawMax a) => [(wa_signer a, wa_treasury a, fee)]
  | IM (MClaim a _ _ _) => [(la_claimer a, la_treasury a, fee)]
  | _ => []
  end.
(** What collect_fees takes: everything above the treasury's rent and 0.001 SOL. *)
Definition collected (E : env) (w : world) (i : any_ix) : list (key * key * Z) :=
  match i with
  | IL (LCollectFees a) | IM (MCollectFees a) =>
      [(fa_treasury a, fa_recipient a, lam w (fa_treasury a) - rent_min E 105 - 1000000)]
  | _ => []
  end.
Definition bill (E : env) (w : world) (i : any_ix) (fee : Z) : list (key * key * Z) :=
  fee_paid i fee ++ collected E w i ++ rents E w (payer_of i) (opens E i) ++ levies E (payer_of i) (metadata_made i).

(** ** Following the lamports through an instruction *)
Record ledger (E : env) (payer : key) (w : world) (l m : list (key * Z)) (w' : world) : Prop := {
  lg_lam : forall k, lam w' k = lam w k + net (rents E w payer l ++ levies E payer m) k;
  lg_dom : forall k, wdat w' !! k = None -> wdat w !! k = None;
  lg_new : forall k s, (k, s) ∈ l -> wdat w' !! k <> None /\ (wdat w !! k = None -> k <> payer /\ rent_min E s <= lam w' k);
  lg_md : forall k s, (k, s) ∈ m -> wdat w' !! k <> None /\ wdat w !! k = None /\ k <> payer /\ (0 <= lam w k -> rent_min E s <= lam w' k) }.

Lemma ledger_start E payer w : ledger E payer w [] [] w.
Proof. split; [intros k; simpl; lia|done| |]; intros k s H; by apply elem_of_nil in H. Qed.

(** A step that moves no lamports and removes no account. *)
Definition quiet (w w' : world) : Prop := (forall k, lam w' k = lam w k) /\ (forall k, wdat w' !! k = None -> wdat w !! k = None).
Lemma ledger_quiet E payer w l m w1 w2 : ledger E payer w l m w1 -> quiet w1 w2 -> ledger E payer w l m w2.
Proof.
  intros [H1 H2 H3 H4] [Q1 Q2]. split.
  - intros k. by rewrite Q1, H1.
  - intros k Hk. by apply H2, Q2.
  - intros k s Hin. destruct (H3 k s Hin) as [A B]. split; [intros Hn; by apply A, Q2|]. rewrite Q1. exact B.
  - intros k s Hin. destruct (H4 k s Hin) as [A B]. split; [intros Hn; by apply A, Q2|]. rewrite Q1. exact B.
Qed.
Lemma quiet_set_dat k d w : quiet w (set_dat k d w).
Proof.
  split; [intros j; apply lam_set_dat|]. intros j. rewrite wdat_set_dat. destruct (decide (k = j)) as [->|Hne].
  - by rewrite lookup_insert.
  - by rewrite lookup_insert_ne.
Qed.
Lemma quiet_trans w1 w2 w3 : quiet w1 w2 -> quiet w2 w3 -> quiet w1 w3.
Proof. intros [A B] [C D]. split; [intros k; by rewrite C, A|intros k Hk; by apply B, D]. Qed.
Lemma quiet_refl w : quiet w w. Proof. done. Qed.
Lemma quiet_mint tp mintk to auth signed amount w w' : mint_to tp mintk to auth signed amount w = Ok w' -> quiet w w'.
Proof. intros H. apply mint_to_ok in H as (m & t & _ & _ & _ & _ & _ & _ & _ & _ & _ & _ & ->). eapply quiet_trans; apply quiet_set_dat. Qed.
Lemma quiet_transfer E tp from to auth signed mintk amount dec w w' : transfer_checked E tp from to auth signed mintk amount dec w = Ok w' -> quiet w w'.
Proof.
  intros H. apply transfer_checked_ok in H as (tf & td & m & _ & _ & _ & _ & _ & _ & _ & _ & _ & _ & _ & _ & _ & _ & [[_ ->]|(_ & _ & ->)]).
  - apply quiet_refl.
  - eapply quiet_trans; apply quiet_set_dat.
Qed.
Lemma quiet_sign md signed w w' : sign_metadata md signed w = Ok w' -> quiet w w'.
Proof. intros H. apply sign_metadata_ok in H as (? & ? & ? & ? & ? & ? & _ & _ & ->). apply quiet_set_dat. Qed.
Lemma quiet_verify E md auth collm collmd colled signed w w' : set_and_verify_collection E md auth collm collmd colled signed w = Ok w' -> quiet w w'.
Proof.
  unfold set_and_verify_collection. repeat (case_match; try discriminate). intros H9. inv_all H9. injection H9 as <-.
  eapply quiet_trans; apply quiet_set_dat.
Qed.

Lemma net_rents_other E w payer l k : k <> payer -> (forall s, (k, s) ∉ l) -> net (rents E w payer l) k = 0.
Proof.
  intros Hp. induction l as [|[j s] l IH]; intros Hl; [done|].
  change (net (rents E w payer ((j, s) :: l)) k) with
    ((if k =? j then rent_due E w j s else 0) - (if k =? payer then rent_due E w j s else 0) + net (rents E w payer l) k).
  rewrite (proj2 (Z.eqb_neq k j)), (proj2 (Z.eqb_neq k payer)); [|done|].
  - rewrite IH; [done|]. intros s' Hin. by apply (Hl s'), elem_of_list_further.
  - intros ->. apply (Hl s). left.
Qed.
Lemma net_rents_snoc E w payer l k s j : net (rents E w payer (l ++ [(k, s)])) j = net (rents E w payer l) j + net [(payer, k, rent_due E w k s)] j.
Proof. unfold rents. rewrite map_app. apply net_app. Qed.

Lemma net_levies_other E payer l k : k <> payer -> (forall s, (k, s) ∉ l) -> net (levies E payer l) k = 0.
Proof.
  intros Hp. induction l as [|[j s] l IH]; intros Hl; [done|].
  change (net (levies E payer ((j, s) :: l)) k) with
    ((if k =? j then rent_min E s + md_fee E else 0) - (if k =? payer then rent_min E s + md_fee E else 0) + net (levies E payer l) k).
  rewrite (proj2 (Z.eqb_neq k j)), (proj2 (Z.eqb_neq k payer)); [|done|].
  - rewrite IH; [done|]. intros s' Hin. by apply (Hl s'), elem_of_list_further.
  - intros ->. apply (Hl s). left.
Qed.
Lemma net_levies_snoc E payer l k s j : net (levies E payer (l ++ [(k, s)])) j = net (levies E payer l) j + net [(payer, k, rent_min E s + md_fee E)] j.
Proof. unfold levies. rewrite map_app. apply net_app. Qed.
Lemma fund_account_net payer k0 n d w w' k : 0 <= n -> fund_account payer k0 n d w = Ok w' -> lam w' k = lam w k + net [(payer, k0, n)] k.
Proof.
  intros Hn. unfold fund_account. destruct (wdat w !! k0) eqn:Hk; [discriminate|]. intros H. inv_all H. bools. injection H as <-. rewrite lam_set_dat. simpl.
  destruct (Z.ltb_spec 0 n) as [H0|H0].
  - apply system_transfer_ok in He0 as (_ & _ & _ & Hm & _ & Ho); [|lia]. destruct Hm as [Hm1 Hm2]; [done|].
    destruct (Z.eqb_spec k k0) as [Ea|Ea], (Z.eqb_spec k payer) as [Eb|Eb].
    + congruence.
    + rewrite Ea, Hm2. lia.
    + rewrite Eb, Hm1. lia.
    + rewrite Ho by done. lia.
  - injection He0 as <-. destruct (k =? k0), (k =? payer); lia.
Qed.
(** Creating an account. *)
Lemma ledger_init E payer w l m w1 k space d w2 : env_ok E -> ledger E payer w l m w1 -> init_account E payer k space d w1 = Ok w2 ->
  ledger E payer w (l ++ [(k, space)]) m w2.
Proof.
  intros HE [H1 H2 H3 H4] Hx. pose proof (init_account_ok _ _ _ _ _ _ _ Hx) as (Hn & Hne & Hd & Hr).
  pose proof (ds_dat _ _ _ Hd) as Hdat.
  assert (forall s, (k, s) ∉ l) as Hnl by (intros s Hin; by apply (proj1 (H3 k s Hin))).
  assert (forall s, (k, s) ∉ m) as Hnm by (intros s Hin; by apply (proj1 (H4 k s Hin))).
  assert (lam w1 k = lam w k) as Hlk by (rewrite H1, net_app, net_rents_other, net_levies_other; [lia|congruence|exact Hnm|congruence|exact Hnl]).
  assert (rent_due E w1 k space = rent_due E w k space) as Hrd by (unfold rent_due; by rewrite Hn, (H2 _ Hn), Hlk).
  pose proof (fun j => init_account_net _ _ _ _ _ _ _ j (eo_rent _ HE space) Hx) as Hnet.
  assert (forall j, k <> j -> j <> payer -> lam w2 j = lam w1 j) as Hkeep.
  { intros j Hkj Hj. rewrite Hnet. simpl. rewrite (proj2 (Z.eqb_neq j k)), (proj2 (Z.eqb_neq j payer)) by congruence. lia. }
  split.
  - intros j. rewrite Hnet, H1, Hrd, !net_app, net_rents_snoc. lia.
  - intros j. rewrite Hdat. destruct (decide (k = j)) as [->|Hkj]; [by rewrite lookup_insert|]. rewrite lookup_insert_ne by done. apply H2.
  - intros j s Hin. apply elem_of_app in Hin as [Hin|Hin].
    + destruct (H3 j s Hin) as [A B]. assert (k <> j) as Hkj by (intros <-; by apply (Hnl s)).
      rewrite Hdat, lookup_insert_ne by done. split; [exact A|]. intros Hj. destruct (B Hj) as [B1 B2]. split; [exact B1|].
      by rewrite Hkeep.
    + apply elem_of_list_singleton in Hin. injection Hin as -> ->. rewrite Hdat, lookup_insert. split; [done|]. intros _. split; [congruence|exact Hr].
  - intros j s Hin. destruct (H4 j s Hin) as (A & B & C & D). assert (k <> j) as Hkj by (intros <-; by apply (Hnm s)).
    rewrite Hdat, lookup_insert_ne by done. split; [exact A|]. split; [exact B|]. split; [exact C|]. by rewrite Hkeep.
Qed.
(** Creating a metadata account. *)
Lemma ledger_fund E payer w l m w1 k space d w2 : env_ok E -> ledger E payer w l m w1 -> fund_account payer k (rent_min E space + md_fee E) d w1 = Ok w2 ->
  ledger E payer w l (m ++ [(k, space)]) w2.
Proof.
  intros HE [H1 H2 H3 H4] Hx. pose proof (fund_account_ok _ _ _ _ _ _ Hx) as (Hn & Hne & Hd & Hr).
  pose proof (ds_dat _ _ _ Hd) as Hdat.
  assert (forall s, (k, s) ∉ l) as Hnl by (intros s Hin; by apply (proj1 (H3 k s Hin))).
  assert (forall s, (k, s) ∉ m) as Hnm by (intros s Hin; by apply (proj1 (H4 k s Hin))).
  assert (lam w1 k = lam w k) as Hlk by (rewrite H1, net_app, net_rents_other, net_levies_other; [lia|congruence|exact Hnm|congruence|exact Hnl]).
  assert (0 <= rent_min E space + md_fee E) as H0 by (pose proof (eo_rent _ HE space); pose proof (eo_md_fee _ HE); lia).
  pose proof (fun j => fund_account_net _ _ _ _ _ _ j H0 Hx) as Hnet.
  assert (forall j, k <> j -> j <> payer -> lam w2 j = lam w1 j) as Hkeep.
  { intros j Hkj Hj. rewrite Hnet. simpl. rewrite (proj2 (Z.eqb_neq j k)), (proj2 (Z.eqb_neq j payer)) by congruence. lia. }
  split.
  - intros j. rewrite Hnet, H1, !net_app, net_levies_snoc. lia.
  - intros j. rewrite Hdat. destruct (decide (k = j)) as [->|Hkj]; [by rewrite lookup_insert|]. rewrite lookup_insert_ne by done. apply H2.
  - intros j s Hin. destruct (H3 j s Hin) as [A B]. assert (k <> j) as Hkj by (intros <-; by apply (Hnl s)).
    rewrite Hdat, lookup_insert_ne by done. split; [exact A|]. intros Hj. destruct (B Hj) as [B1 B2]. split; [exact B1|]. by rewrite Hkeep.
  - intros j s Hin. apply elem_of_app in Hin as [Hin|Hin].
    + destruct (H4 j s Hin) as (A & B & C & D). assert (k <> j) as Hkj by (intros <-; by apply (Hnm s)).
      rewrite Hdat, lookup_insert_ne by done. split; [exact A|]. split; [exact B|]. split; [exact C|]. by rewrite Hkeep.
    + apply elem_of_list_singleton in Hin. injection Hin as -> ->. rewrite Hdat, lookup_insert. split; [done|]. split; [exact (H2 _ Hn)|]. split; [congruence|].
      intros Hl. rewrite Hr, Hlk. pose proof (eo_md_fee _ HE). lia.
Qed.
Lemma ledger_ata E payer w l m w1 k owner mintk tp w2 : env_ok E -> ledger E payer w l m w1 ->
  create_ata E payer k owner mintk tp w1 = Ok w2 -> ledger E payer w (l ++ [(k, token_size E mintk tp)]) m w2.
Proof. intros HE H Hx. unfold create_ata in Hx. inv_all Hx. eapply ledger_init; [exact HE|exact H|exact Hx]. Qed.
Lemma ledger_ata_first E payer w k owner mintk tp w2 : env_ok E ->
  init_ata_if_needed E payer k owner mintk tp w = Ok w2 -> ledger E payer w [(k, token_size E mintk tp)] [] w2.
Proof.
  intros HE Hx. destruct (wdat w !! k) as [d|] eqn:Hk.
  - pose proof (init_ata_if_needed_ok _ _ _ _ _ _ _ _ Hx) as (_ & t & _ & _ & _ & [(? & _)|(_ & ->)] & _); [congruence|].
    split.
    + intros j. unfold rents, rent_due. simpl. rewrite Hk. destruct (j =? k), (j =? payer); lia.
    + done.
    + intros j s Hin. apply elem_of_list_singleton in Hin. injection Hin as -> ->. rewrite Hk. done.
    + intros j s Hin. by apply elem_of_nil in Hin.
  - unfold init_ata_if_needed in Hx. rewrite Hk in Hx. exact (ledger_ata _ _ _ [] [] _ _ _ _ _ _ HE (ledger_start E payer w) Hx).
Qed.
Lemma ledger_metadata E payer w l m w1 md mintk auth signed name sym uri size w2 : env_ok E -> ledger E payer w l m w1 ->
  create_metadata E payer md mintk auth signed name sym uri size w1 = Ok w2 -> ledger E payer w l (m ++ [(md, 607)]) w2.
Proof. intros HE H Hx. unfold create_metadata in Hx. inv_all Hx. exact (ledger_fund _ _ _ _ _ _ _ METADATA_SPACE _ _ HE H Hx). Qed.
Lemma ledger_edition E payer w l m w1 ed md mintk auth signed w2 : env_ok E -> ledger E payer w l m w1 ->
  create_master_edition E payer ed md mintk auth signed w1 = Ok w2 -> ledger E payer w (l ++ [(ed, 282)]) m w2.
Proof.
  intros HE H Hx. unfold create_master_edition in Hx. inv_all Hx. injection Hx as <-.
  eapply ledger_quiet; [|apply quiet_set_dat].
  match goal with Hi : init_account _ _ _ _ _ _ = Ok _ |- _ => exact (ledger_init _ _ _ _ _ _ _ EDITION_SPACE _ _ HE H Hi) end.
Qed.

(** ** The instructions *)
Ltac quiet_sd := repeat match goal with L : ledger ?E ?p ?w ?l ?m ?v, H : context [set_dat ?k ?d ?v] |- _ =>
  lazymatch goal with _ : ledger E p w l m (set_dat k d v) |- _ => fail | _ => idtac end;
  assert (ledger E p w l m (set_dat k d v)) by exact (ledger_quiet _ _ _ _ _ _ _ L (quiet_set_dat k d v)) end.
Ltac ledge HE := repeat (quiet_sd; match goal with
  | L : ledger _ _ _ _ _ ?v, H : init_account _ _ _ _ _ ?v = Ok _ |- _ => apply (ledger_init _ _ _ _ _ _ _ _ _ _ HE L) in H
  | L : ledger _ _ _ _ _ ?v, H : create_mint _ _ _ _ _ _ _ ?v = Ok _ |- _ => apply (ledger_init _ _ _ _ _ _ _ MINT_SPACE _ _ HE L) in H
  | L : ledger _ _ _ _ _ ?v, H : create_ata _ _ _ _ _ _ ?v = Ok _ |- _ => apply (ledger_ata _ _ _ _ _ _ _ _ _ _ _ HE L) in H
  | L : ledger _ _ _ _ _ ?v, H : create_metadata _ _ _ _ _ _ _ _ _ _ ?v = Ok _ |- _ => apply (ledger_metadata _ _ _ _ _ _ _ _ _ _ _ _ _ _ _ HE L) in H
  | L : ledger _ _ _ _ _ ?v, H : create_master_edition _ _ _ _ _ _ _ ?v = Ok _ |- _ => apply (ledger_edition _ _ _ _ _ _ _ _ _ _ _ _ HE L) in H
  | L : ledger _ _ _ _ _ ?v, H : mint_to _ _ _ _ _ _ ?v = Ok _ |- _ => apply quiet_mint in H; apply (ledger_quiet _ _ _ _ _ _ _ L) in H
  | L : ledger _ _ _ _ _ ?v, H : transfer_checked _ _ _ _ _ _ _ _ _ ?v = Ok _ |- _ => apply quiet_transfer in H; apply (ledger_quiet _ _ _ _ _ _ _ L) in H
  | L : ledger _ _ _ _ _ ?v, H : sign_metadata _ _ ?v = Ok _ |- _ => apply quiet_sign in H; apply (ledger_quiet _ _ _ _ _ _ _ L) in H
  | L : ledger _ _ _ _ _ ?v, H : set_and_verify_collection _ _ _ _ _ _ _ ?v = Ok _ |- _ => apply quiet_verify in H; apply (ledger_quiet _ _ _ _ _ _ _ L) in H
  end).

Lemma initialize_ledger E sg a f p c w w' evs : env_ok E -> initialize E sg a f p c w = Ok (w', evs) ->
  ledger E (ia_initializer a) w (opens E (IL (LInitialize a f p c))) (metadata_made (IL (LInitialize a f p c))) w'.
Proof.
  intros HE H. unfold initialize in H. inv_all H. injection H as <- _.
  pose proof (ledger_start E (ia_initializer a) w) as L0. ledge HE.
  match goal with L : ledger _ _ _ _ _ ?v |- ledger _ _ _ _ _ ?v => exact L end.
Qed.
Lemma create_accounts_ledger E sg a salt w w1 sb mb nc dm : env_ok E -> create_accounts E sg a salt w = Ok (w1, sb, mb, nc, dm) ->
  ledger E (ca_creator a) w [(ca_nft_mint a, 82); (ca_recipient_nft_ata a, token_size E (ca_nft_mint a) (ca_nft_tp a));
      (ca_stream a, 156); (ca_vault a, token_size E (ca_deposit_mint a) (ca_deposit_tp a))] [] w1.
Proof.
  intros HE H. unfold create_accounts in H. inv_all H. injection H as <- _ _ _ _.
  pose proof (ledger_start E (ca_creator a) w) as L0. ledge HE.
  match goal with L : ledger _ _ _ _ _ ?v |- ledger _ _ _ _ _ ?v => exact L end.
Qed.
Lemma create_handler_ledger E sg a p sb mb nc dm w l m w1 w' evs : env_ok E -> ledger E (ca_creator a) w l m w1 ->
  create_handler E sg a p sb mb nc dm w1 = Ok (w', evs) -> ledger E (ca_creator a) w (l ++ [(ca_edition a, 282)]) (m ++ [(ca_metadata a, 607)]) w'.
Proof.
  intros HE L0 H. unfold create_handler in H. inv_all H. injection H as <- _.
  match goal with Hn : nft_create_stream _ _ _ _ = Ok _ |- _ => unfold nft_create_stream in Hn; inv_all Hn end.
  ledge HE. match goal with L : ledger _ _ _ _ _ ?v |- ledger _ _ _ _ _ ?v => exact L end.
Qed.
Lemma create_ts_ledger E sg a p w w' evs : env_ok E -> create_with_timestamps E sg a p w = Ok (w', evs) ->
  ledger E (ca_creator a) w (opens E (IL (LCreateTs a p))) (metadata_made (IL (LCreateTs a p))) w'.
Proof.
  intros HE H. unfold create_with_timestamps in H. apply rbind_ok in H as ([[[[w1 sb] mb] nc] dm] & H1 & H2).
  exact (create_handler_ledger _ _ _ _ _ _ _ _ _ _ _ _ _ _ HE (create_accounts_ledger _ _ _ _ _ _ _ _ _ _ HE H1) H2).
Qed.
Lemma create_dur_ledger E sg a q w w' evs : env_ok E -> create_with_durations E sg a q w = Ok (w', evs) ->
  ledger E (ca_creator a) w (opens E (IL (LCreateDur a q))) (metadata_made (IL (LCreateDur a q))) w'.
Proof.
  intros HE H. unfold create_with_durations in H. apply rbind_ok in H as ([[[[w1 sb] mb] nc] dm] & H1 & H2). inv_all H2.
  exact (create_handler_ledger _ _ _ _ _ _ _ _ _ _ _ _ _ _ HE (create_accounts_ledger _ _ _ _ _ _ _ _ _ _ HE H1) H2).
Qed.
Lemma cancel_ledger E sg a w w' evs : env_ok E -> Lockup.cancel E sg a w = Ok (w', evs) ->
  ledger E (xa_sender a) w (opens E (IL (LCancel a))) (metadata_made (IL (LCancel a))) w'.
Proof.
  intros HE H. unfold Lockup.cancel in H. inv_all H. injection H as <- _.
  match goal with Hi : init_ata_if_needed _ _ _ _ _ _ _ = Ok _ |- _ => apply ledger_ata_first in Hi; [|exact HE] end.
  ledge HE. match goal with L : ledger _ _ _ _ _ ?v |- ledger _ _ _ _ _ ?v => exact L end.
Qed.
Lemma clawback_ledger E sg a amount w w' evs : env_ok E -> clawback E sg a amount w = Ok (w', evs) ->
  ledger E (ba_creator a) w (opens E (IM (MClawback a amount))) (metadata_made (IM (MClawback a amount))) w'.
Proof.
  intros HE H. unfold clawback in H. inv_all H. injection H as <- _.
  match goal with Hi : init_ata_if_needed _ _ _ _ _ _ _ = Ok _ |- _ => apply ledger_ata_first in Hi; [|exact HE] end.
  ledge HE. match goal with L : ledger _ _ _ _ _ ?v |- ledger _ _ _ _ _ ?v => exact L end.
Qed.
Lemma m_initialize_ledger E sg i t f p c w w' evs : env_ok E -> m_initialize E sg i t f p c w = Ok (w', evs) ->
  ledger E i w (opens E (IM (MInitialize i t f p c))) (metadata_made (IM (MInitialize i t f p c))) w'.
Proof.
  intros HE H. unfold m_initialize in H. inv_all H. injection H as <- _.
  pose proof (ledger_start E i w) as L0. ledge HE.
  eapply ledger_quiet; [|apply quiet_set_dat]. match goal with L : ledger _ _ _ _ _ ?v |- ledger _ _ _ _ _ ?v => exact L end.
Qed.
Lemma create_campaign_ledger E sg a g w w' evs : env_ok E -> create_campaign E sg a g w = Ok (w', evs) ->
  ledger E (na_creator a) w (opens E (IM (MCreateCampaign a g))) (metadata_made (IM (MCreateCampaign a g))) w'.
Proof.
  intros HE H. unfold create_campaign in H. inv_all H. injection H as <- _.
  pose proof (ledger_start E (na_creator a) w) as L0. ledge HE.
  eapply ledger_quiet; [|apply quiet_set_dat]. match goal with L : ledger _ _ _ _ _ ?v |- ledger _ _ _ _ _ ?v => exact L end.
Qed.
(** The accounts created are funded, also when a fee is paid on top. *)
Definition funded (E : env) (i : any_ix) (w w' : world) : Prop :=
  (forall k s, (k, s) ∈ opens E i -> wdat w !! k = None -> k <> payer_of i /\ rent_min E s <= lam w' k) /\
  (forall k s, (k, s) ∈ metadata_made i -> k <> payer_of i /\ (0 <= lam w k -> rent_min E s <= lam w' k)).
Lemma ledger_funded E i w w' : ledger E (payer_of i) w (opens E i) (metadata_made i) w' -> funded E i w w'.
Proof.
  intros H. split; intros k s Hin; [intros Hk; exact (proj2 (lg_new _ _ _ _ _ _ H k s Hin) Hk)|].
  destruct (lg_md _ _ _ _ _ _ H k s Hin) as (_ & _ & B & C). done.
Qed.
(** Every account created holds at least its rent. *)
Lemma funded_all E i w w' k s : funded E i w w' -> (k, s) ∈ creates E i -> wdat w !! k = None -> 0 <= lam w k ->
  k <> payer_of i /\ rent_min E s <= lam w' k.
Proof.
  intros [H1 H2] Hin Hk H0. apply elem_of_app in Hin as [Hin|Hin]; [by apply H1|]. destruct (H2 _ _ Hin) as [A B]. split; [exact A|by apply B].
Qed.
(** A fee after the accounts. *)
Lemma ledger_fee E payer w l m w1 fee prog feed treas w2 f : ledger E payer w l m w1 -> 0 <= f ->
  charge_fee fee prog feed payer treas w1 = Ok (w2, f) ->
  (forall k s, (k, s) ∈ l -> wdat w2 !! k <> None /\ (wdat w !! k = None -> k <> payer /\ rent_min E s <= lam w2 k)) /\
  (forall k, lam w2 k = lam w1 k + net [(payer, treas, f)] k) /\ (wdat w !! payer <> None -> f = 0).
Proof.
  intros [H1 H2 H3 _] Hf Hc. pose proof (charge_fee_ok _ _ _ _ _ _ _ _ Hc) as (Hls & _ & Hcase).
  pose proof (ls_dat _ _ Hls) as Hd. split_and!.
  - intros k s Hin. destruct (H3 k s Hin) as [A B]. rewrite Hd. split; [exact A|]. intros Hk. destruct (B Hk) as [B1 B2]. split; [exact B1|].
    pose proof (ls_mono _ _ Hls k A). lia.
  - intros k. exact (charge_fee_net _ _ _ _ _ _ _ _ k Hf Hc).
  - intros Hp. destruct Hcase as [[? _]|[? Hs]]; [lia|]. apply system_transfer_ok in Hs as (_ & Hn & _); [|lia].
    exfalso. by apply Hp, H2.
Qed.

Lemma withdraw_funded E sg a amount w w' evs fee : env_ok E -> withdraw E sg a amount w = Ok (w', evs) ->
  withdrawal_fee_in_lamports E (wa_treasury a) (wa_chainlink a) (wa_feed a) w = Ok fee ->
  (forall k s, (k, s) ∈ [(wa_dest a, token_size E (wa_mint a) (wa_tp a))] -> wdat w !! k = None -> k <> wa_signer a /\ rent_min E s <= lam w' k) /\
  (wdat w !! wa_signer a <> None -> fee = 0).
Proof.
  intros HE H Hq. destruct (withdraw_lam _ _ _ _ _ _ _ HE H) as (fee' & Hq' & Hf0 & Hev & _). rewrite Hq in Hq'. injection Hq' as <-.
  unfold withdraw in H. apply rbind_ok in H as ([[w1 s] m] & H1 & H2). unfold withdraw_accounts in H1. inv_all H1. injection H1 as <- _ _.
  match goal with Hi : init_ata_if_needed _ _ _ _ _ _ _ = Ok _ |- _ => apply ledger_ata_first in Hi; [|exact HE] end.
  unfold withdraw_handler in H2. inv_all H2. match goal with p : (world * Z)%type |- _ => destruct p as [w3 fee'] end. inv_all H2.
  injection H2 as <- Hev'. rewrite Hev in Hev'. injection Hev' as ->. quiet_sd.
  match goal with L : ledger _ _ _ _ _ ?v, Hc : charge_fee _ _ _ _ _ ?v = Ok _ |- _ =>
    pose proof (ledger_fee _ _ _ _ _ _ _ _ _ _ _ _ L Hf0 Hc) as (F1 & _ & F3) end.
  split; [|exact F3]. intros k s' Hin Hk.
  match goal with Ht : transfer_checked _ _ _ _ _ _ _ _ _ _ = Ok _ |- _ => rewrite (transfer_checked_lam _ _ _ _ _ _ _ _ _ _ _ k Ht) end.
  exact (proj2 (F1 k s' Hin) Hk).
Qed.
Lemma claim_funded E sg a index amount proof w w' evs fee : env_ok E -> merkle_exec E sg (MClaim a index amount proof) w = Ok (w', evs) ->
  claim_fee_in_lamports E (la_treasury a) (la_chainlink a) (la_feed a) w = Ok fee ->
  funded E (IM (MClaim a index amount proof)) w w' /\ (wdat w !! la_claimer a <> None -> fee = 0).
Proof.
  intros HE H Hq. destruct (C31_claim _ _ _ _ _ _ _ _ _ HE H) as (tr & fee' & _ & _ & _ & Hq' & Hev & _ & Hf0 & _). rewrite Hq in Hq'. injection Hq' as <-.
  unfold merkle_exec in H. inv_all H. unfold claim in H. inv_all H.
  match goal with p : (world * Z)%type |- _ => destruct p as [w3 fee'] end. inv_all H.
  injection H as <- Hev'. rewrite Hev in Hev'. injection Hev' as ->.
  match goal with Hi : init_ata_if_needed _ _ _ _ _ _ _ = Ok _ |- _ => apply ledger_ata_first in Hi; [|exact HE] end. 
  match goal with L : ledger _ _ _ _ _ ?v, H : init_account _ _ _ _ _ ?v = Ok _ |- _ => apply (ledger_init _ _ _ _ _ _ _ _ _ _ HE L) in H end. quiet_sd.
  match goal with L : ledger _ _ _ _ _ ?v, Hc : charge_fee _ _ _ _ _ ?v = Ok _ |- _ =>
    pose proof (ledger_fee _ _ _ _ _ _ _ _ _ _ _ _ L Hf0 Hc) as (F1 & _ & F3) end.
  split; [|exact F3]. split; [|intros k s' Hin; by apply elem_of_nil in Hin]. intros k s' Hin Hk.
  match goal with Ht : transfer_checked _ _ _ _ _ _ _ _ _ _ = Ok _ |- _ => rewrite (transfer_checked_lam _ _ _ _ _ _ _ _ _ _ _ k Ht) end.
  exact (proj2 (F1 k s' Hin) Hk).
Qed.

Lemma net_nil_r ps k : net (ps ++ []) k = net ps k. Proof. by rewrite app_nil_r. Qed.
Lemma fees_net from to n w w' k : move_lamports from to n w = Ok w' -> lam w' k = lam w k + net [(from, to, n)] k.
Proof.
  intros H. apply move_lamports_ok in H as (_ & _ & _ & _ & Hne & Heq & Hoth). simpl.
  destruct (Z.eqb_spec k to) as [Et|Nt], (Z.eqb_spec k from) as [Ef|Nf].
  - rewrite Ef, Heq by congruence. lia.
  - rewrite Et. destruct Hne as [_ ->]; [congruence|]. lia.
  - rewrite Ef. destruct Hne as [-> _]; [congruence|]. lia.
  - rewrite Hoth by done. lia.
Qed.

(** ** C66 *)
(** After an accepted instruction every balance has changed by its bill and by nothing else, for every account. *)
Lemma exec_bill E sg i w w' evs : env_ok E -> exec E sg i w = Ok (w', evs) ->
  exists fee, fee_quote E i w = Ok fee /\ 0 <= fee /\ (forall k, lam w' k = lam w k + net (bill E w i fee) k) /\
    funded E i w w' /\ (wdat w !! payer_of i <> None -> fee = 0).
Proof.
  intros HE Hx.
  assert (forall l m, opens E i = l -> metadata_made i = m -> fee_quote E i w = Ok 0 -> fee_paid i 0 = [] -> collected E w i = [] -> ledger E (payer_of i) w l m w' ->
    exists fee, fee_quote E i w = Ok fee /\ 0 <= fee /\ (forall k, lam w' k = lam w k + net (bill E w i fee) k) /\
      funded E i w w' /\ (wdat w !! payer_of i <> None -> fee = 0)) as Hno.
  { intros l m <- <- Hq Hp Hcl L. exists 0. split; [exact Hq|]. split; [lia|]. split; [|split; [by apply ledger_funded|done]].
    intros k. unfold bill. rewrite Hp, Hcl. exact (lg_lam _ _ _ _ _ _ L k). }
  destruct i as [[a f p c|a p|a q|a|a|a amount|a|a]|[i t f p c|a g|a index amount proof|a amount|a]]; cbn [exec] in Hx.
  - unfold lockup_exec in Hx. inv_all Hx. eapply Hno; try reflexivity. by eapply initialize_ledger.
  - unfold lockup_exec in Hx. inv_all Hx. eapply Hno; try reflexivity. by eapply create_ts_ledger.
  - unfold lockup_exec in Hx. inv_all Hx. eapply Hno; try reflexivity. by eapply create_dur_ledger.
  - unfold lockup_exec in Hx. inv_all Hx. eapply Hno; try reflexivity.
    unfold renounce in Hx. inv_all Hx. injection Hx as <- _. eapply ledger_quiet; [apply ledger_start|apply quiet_set_dat].
  - unfold lockup_exec in Hx. inv_all Hx. eapply Hno; try reflexivity. by eapply cancel_ledger.
  - destruct (C31_withdraw _ _ _ a _ _ _ HE (or_intror (ex_intro _ amount eq_refl)) Hx) as (tr & fee & am & _ & _ & _ & Hq & _ & Hl & Hf & _).
    exists fee. split; [exact Hq|]. split; [exact Hf|]. split; [exact Hl|].
    unfold lockup_exec in Hx. inv_all Hx. destruct (withdraw_funded _ _ _ _ _ _ _ _ HE Hx Hq) as [F1 F2]. split; [|exact F2]. split; [exact F1|]. intros k s Hin. by apply elem_of_nil in Hin.
  - destruct (C31_withdraw _ _ _ a _ _ _ HE (or_introl eq_refl) Hx) as (tr & fee & am & _ & _ & _ & Hq & _ & Hl & Hf & _).
    exists fee. split; [exact Hq|]. split; [exact Hf|]. split; [exact Hl|].
    unfold lockup_exec in Hx. inv_all Hx. apply withdraw_max_eq in Hx as (wd & _ & Hx). destruct (withdraw_funded _ _ _ _ _ _ _ _ HE Hx Hq) as [F1 F2]. split; [|exact F2]. split; [exact F1|]. intros k s Hin. by apply elem_of_nil in Hin.
  - apply lockup_exec_effect in Hx as [_ Heff].
    exists 0. split; [done|]. split; [lia|]. split; [|split; [split; intros k s Hin; by apply elem_of_nil in Hin|done]].
    inversion Heff as [| ? ? ? ? ? ? ? ? ? ? ? ? ? ? [?|(? & ? & _)] | | |? ? ? ? ? ? ? ? ? ? ? ? ? ? [?|[? _]] |? tr n ? ? ? ? ? Hn ? Hmv]; subst; try discriminate.
    intros k. rewrite (fees_net _ _ _ _ _ k Hmv). unfold bill, collected. cbn [fee_paid opens metadata_made rents levies map app]. rewrite Z.sub_add_distr. reflexivity.
  - unfold merkle_exec in Hx. inv_all Hx. eapply Hno; try reflexivity. by eapply m_initialize_ledger.
  - unfold merkle_exec in Hx. inv_all Hx. eapply Hno; try reflexivity. by eapply create_campaign_ledger.
  - destruct (C31_claim _ _ _ _ _ _ _ _ _ HE Hx) as (tr & fee & _ & _ & _ & Hq & _ & Hl & Hf & _).
    exists fee. split; [exact Hq|]. split; [exact Hf|]. split; [exact Hl|]. exact (claim_funded _ _ _ _ _ _ _ _ _ _ HE Hx Hq).
  - unfold merkle_exec in Hx. inv_all Hx. eapply Hno; try reflexivity. by eapply clawback_ledger.
  - apply merkle_exec_effect in Hx as [_ Heff].
    exists 0. split; [done|]. split; [lia|]. split; [|split; [split; intros k s Hin; by apply elem_of_nil in Hin|done]].
    inversion Heff as [| | | |? tr n ? ? ? ? ? Hn ? Hmv]; subst.
    intros k. rewrite (fees_net _ _ _ _ _ k Hmv). unfold bill, collected. cbn [fee_paid opens metadata_made rents levies map app]. rewrite Z.sub_add_distr. reflexivity.
Qed.
Theorem C66_bill : forall E sg i w w' evs, env_ok E -> exec E sg i w = Ok (w', evs) ->
  exists fee, fee_quote E i w = Ok fee /\ 0 <= fee /\ forall k, lam w' k = lam w k + net (bill E w i fee) k.
Proof. intros E sg i w w' evs HE Hx. destruct (exec_bill _ _ _ _ _ _ HE Hx) as (fee & H1 & H2 & H3 & _). by exists fee. Qed.

(** So the caller pays the fee and the rents, whatever else it is in the instruction (collect_fees: pays nothing). *)
Definition rent_sum (E : env) (w : world) (l : list (key * Z)) : Z := fold_right (fun '(k, s) acc => rent_due E w k s + acc) 0 l.
Definition levy_sum (E : env) (l : list (key * Z)) : Z := fold_right (fun '(_, s) acc => rent_min E s + md_fee E + acc) 0 l.
Definition is_collect (i : any_ix) : bool := match i with IL (LCollectFees _) | IM (MCollectFees _) => true | _ => false end.
Theorem C66_payer : forall E sg i w w' evs, env_ok E -> exec E sg i w = Ok (w', evs) -> is_collect i = false ->
  exists fee, fee_quote E i w = Ok fee /\ 
    lam w' (payer_of i) = lam w (payer_of i) - fee - rent_sum E w (opens E i) - levy_sum E (metadata_made i).
Proof.
  intros E sg i w w' evs HE Hx Hi. destruct (exec_bill _ _ _ _ _ _ HE Hx) as (fee & H1 & H2 & H3 & H4 & H5).
  exists fee. split; [exact H1|]. rewrite H3. unfold bill. rewrite !net_app.
  assert (net (collected E w i) (payer_of i) = 0) as -> by (destruct i as [[]|[]]; try done).
  destruct H4 as [H4 H4'].
  assert (net (levies E (payer_of i) (metadata_made i)) (payer_of i) = - levy_sum E (metadata_made i)) as ->.
  { generalize dependent (metadata_made i). generalize (payer_of i). clear. intros pk l. induction l as [|[k s] l IH]; intros Hf; [done|].
    change (net (levies E pk ((k, s) :: l)) pk) with
      ((if pk =? k then rent_min E s + md_fee E else 0) - (if pk =? pk then rent_min E s + md_fee E else 0) + net (levies E pk l) pk).
    cbn [levy_sum fold_right]. fold (levy_sum E l). rewrite IH by (intros k' s' Hin; apply (Hf k' s'); by apply elem_of_list_further).
    rewrite Z.eqb_refl. destruct (Z.eqb_spec pk k) as [->|]; [|lia]. exfalso. by apply (proj1 (Hf k s ltac:(left))). }
  assert (net (rents E w (payer_of i) (opens E i)) (payer_of i) = - rent_sum E w (opens E i)) as ->.
  { clear H4'. generalize dependent (opens E i). generalize (payer_of i). clear. intros pk l. induction l as [|[k s] l IH]; intros Hf; [done|].
    change (net (rents E w pk ((k, s) :: l)) pk) with
      ((if pk =? k then rent_due E w k s else 0) - (if pk =? pk then rent_due E w k s else 0) + net (rents E w pk l) pk).
    cbn [rent_sum fold_right]. fold (rent_sum E w l). rewrite IH by (intros k' s' Hin; apply Hf; by apply elem_of_list_further).
    rewrite Z.eqb_refl. destruct (Z.eqb_spec pk k) as [->|]; [|lia].
    assert (rent_due E w k s = 0) as ->; [|lia]. unfold rent_due. destruct (wdat w !! k) eqn:Hk; [done|].
    exfalso. by apply (proj1 (Hf k s ltac:(left) Hk)). }
  assert (net (fee_paid i fee) (payer_of i) = - fee) as ->; [|lia].
  assert (forall t, (wdat w !! payer_of i = None -> payer_of i <> t) -> net [(payer_of i, t, fee)] (payer_of i) = - fee) as Hfee.
  { intros t Ht. simpl. rewrite Z.eqb_refl. destruct (Z.eqb_spec (payer_of i) t) as [He|]; [|lia].
    rewrite H5; [lia|]. intros Hn. by apply (Ht Hn). }
  destruct i as [[a f p c|a p|a q|a|a|a amount|a|a]|[i t f p c|a g|a index amount proof|a amount|a]]; cbn [fee_paid payer_of] in *;
    try (injection H1 as <-; done).
  - apply Hfee. intros Hn He. destruct (fee_view_inv _ _ _ _ _ _ H1) as (tr & Htr & _). congruence.
  - apply Hfee. intros Hn He. destruct (fee_view_inv _ _ _ _ _ _ H1) as (tr & Htr & _). congruence.
  - apply Hfee. intros Hn He. apply claim_fee_view_inv in H1 as (tr & Htr & _). apply merkle_treasury_view_inv in Htr as [Htr _]. congruence.
Qed.

(** ** C67: accounts of the programs are for ever *)
(** The kinds of account the programs own: program, a tag, size in bytes. *)
Definition owned (d : adata) : option (program * Z * Z) :=
  match d with
  | DLockupTreasury _ => Some (PLockup, 0, 105)
  | DNftCollection _ => Some (PLockup, 1, 17)
  | DStream _ => Some (PLockup, 2, 156)
  | DMerkleTreasury _ => Some (PMerkle, 3, 105)
  | DCampaign _ => Some (PMerkle, 4, 228)
  | DClaimReceipt => Some (PMerkle, 5, 8)
  | _ => None
  end.
Lemma owned_prog d p n s : owned d = Some (p, n, s) -> owner_prog d = Some p.
Proof. destruct d; try discriminate; intros [= <- <- <-]; done. Qed.
Lemma prog_owned d p : (p = PLockup \/ p = PMerkle) -> owner_prog d = Some p -> exists n s, owned d = Some (p, n, s).
Proof. intros Hp. destruct d; try discriminate; intros [= <-]; by eexists _, _. Qed.
Lemma owned_not_token d x : owned d = Some x -> is_token d = false.
Proof. destruct d; done. Qed.

(** An account of a program was there before, with the same kind, or is created by the instruction. *)
Lemma lockup_back E sg ix w w' evs k d x : lockup_effect E sg w ix w' evs -> wdat w' !! k = Some d -> owned d = Some x ->
  (exists d0, wdat w !! k = Some d0 /\ owned d0 = Some x) \/ (wdat w !! k = None /\ (k, snd x) ∈ opens E (IL ix)).
Proof.
  intros Heff Hk Ho.
  destruct Heff as [a f p c tb nb ? F|ix a p ct nc cm dm sb s1 nm c0 c1 ? ? Hix Hargs F|a s1 st ? ? Hsi Hse Hst ? ? ? ? -> ->|a m s1 vt dt st ? ? F
      |? a am tr m nt s1 s' vt dt fee wd ? ? Hix Ham F|a tr n' ? Hc Htr ? ? -> ? Hmv].
  - pose proof (if_fresh _ _ _ _ _ _ _ _ _ _ F) as Hf. rewrite !Forall_cons in Hf. destruct Hf as (N1 & N2 & _).
    rewrite (ds_dat _ _ _ (if_step _ _ _ _ _ _ _ _ _ _ F)) in Hk.
    do 4 (apply lookup_insert_Some in Hk as [[_ <-]|[_ Hk]]; [discriminate|]).
    apply lookup_insert_Some in Hk as [[<- <-]|[_ Hk]]; [injection Ho as <-; right; split; [exact N2|right; left]|].
    apply lookup_insert_Some in Hk as [[<- <-]|[_ Hk]]; [injection Ho as <-; right; split; [exact N1|left]|].
    left. by exists d.
  - pose proof (rf_coll_md_kind _ _ _ _ _ _ _ _ _ _ _ _ _ _ _ _ F) as (? & ? & ? & ? & ? & ? & _ & Hc1).
    rewrite (ds_dat _ _ _ (rf_step _ _ _ _ _ _ _ _ _ _ _ _ _ _ _ _ F)) in Hk. unfold create_map in Hk.
    do 2 (apply lookup_insert_Some in Hk as [[_ <-]|[_ Hk]]; [discriminate|]).
    apply lookup_insert_Some in Hk as [[<- <-]|[_ Hk]].
    { left. exists (DNftCollection nc). split; [apply (rf_nc _ _ _ _ _ _ _ _ _ _ _ _ _ _ _ _ F)|exact Ho]. }
    apply lookup_insert_Some in Hk as [[_ <-]|[_ Hk]]; [rewrite Hc1 in Ho; discriminate|].
    do 4 (apply lookup_insert_Some in Hk as [[_ <-]|[_ Hk]]; [discriminate|]).
    apply lookup_insert_Some in Hk as [[<- <-]|[_ Hk]].
    { right. split; [apply (rf_fresh_stream _ _ _ _ _ _ _ _ _ _ _ _ _ _ _ _ F)|]. injection Ho as <-. cbn [snd].
      destruct Hix as [->|(q & -> & _)]; cbn [opens]; right; right; left. }
    left. by exists d.
  - rewrite wdat_set_dat in Hk. apply lookup_insert_Some in Hk as [[<- <-]|[_ Hk]]; left; [|by exists d].
    exists (DStream s1). split; [exact Hst|exact Ho].
  - left. destruct (payout_back _ _ _ _ _ _ _ _ _ _ _ _ _ _ _ _ _ (cf_pay _ _ _ _ _ _ _ _ _ _ _ F) Hk (owned_not_token _ _ Ho)) as [[-> ->]|?]; [|by exists d].
    eexists. split; [apply (cf_stream _ _ _ _ _ _ _ _ _ _ _ F)|exact Ho].
  - left. destruct (payout_back _ _ _ _ _ _ _ _ _ _ _ _ _ _ _ _ _ (wf_pay _ _ _ _ _ _ _ _ _ _ _ _ _ _ _ _ F) Hk (owned_not_token _ _ Ho)) as [[-> ->]|?]; [|by exists d].
    eexists. split; [apply (wf_stream _ _ _ _ _ _ _ _ _ _ _ _ _ _ _ _ F)|exact Ho].
  - left. apply move_lamports_ok in Hmv as (Hd & _). rewrite Hd in Hk. by exists d.
Qed.
Lemma merkle_back E sg ix w w' evs k d x : merkle_effect E sg w ix w' evs -> wdat w' !! k = Some d -> owned d = Some x ->
  (exists d0, wdat w !! k = Some d0 /\ owned d0 = Some x) \/ (wdat w !! k = None /\ (k, snd x) ∈ opens E (IM ix)).
Proof.
  intros Heff Hk Ho.
  destruct Heff as [i t1 f p c1 b ? Hi Hti Hn Hne Hd Hr|a g m b c1 ? ? Hi Hm Hmp Hf Hn1 Hn2 Hne Hv Hc Hsz Hd ->|a i am pf tr m c1 vt dt fee ? ? F
    |a am m c1 vt dt ? ? F|a tr n ? Hc Htr Hcc Hca -> Hnpos Hmv].
  - rewrite (ds_dat _ _ _ Hd) in Hk. apply lookup_insert_Some in Hk as [[<- <-]|[_ Hk]]; [|left; by exists d].
    injection Ho as <-. right. split; [exact Hn|left].
  - rewrite (ds_dat _ _ _ Hd) in Hk. apply lookup_insert_Some in Hk as [[<- <-]|[_ Hk]].
    { injection Ho as <-. right. split; [exact Hn1|left]. }
    apply lookup_insert_Some in Hk as [[_ <-]|[_ Hk]]; [discriminate|]. left. by exists d.
  - destruct (payout_back _ _ _ _ _ _ _ _ _ _ _ _ _ _ _ _ _ (lf_pay _ _ _ _ _ _ _ _ _ _ _ _ _ _ _ F) Hk (owned_not_token _ _ Ho)) as [[-> ->]|Hk'].
    { left. eexists. split; [apply (lf_campaign _ _ _ _ _ _ _ _ _ _ _ _ _ _ _ F)|exact Ho]. }
    apply lookup_insert_Some in Hk' as [[<- <-]|[_ Hk']]; [|left; by exists d].
    injection Ho as <-. right. split; [apply (lf_receipt _ _ _ _ _ _ _ _ _ _ _ _ _ _ _ F)|right; left].
  - left. destruct (payout_back _ _ _ _ _ _ _ _ _ _ _ _ _ _ _ _ _ (bf_pay _ _ _ _ _ _ _ _ _ _ _ F) Hk (owned_not_token _ _ Ho)) as [[-> ->]|?]; [|by exists d].
    eexists. split; [apply (bf_campaign _ _ _ _ _ _ _ _ _ _ _ F)|exact Ho].
  - left. apply move_lamports_ok in Hmv as (Hd & _). rewrite Hd in Hk. by exists d.
Qed.

(** Lamports of an account with data: only the treasury can be drawn on, down to its rent and the buffer. *)
Lemma collect_keeps k from to n w w' r : move_lamports from to n w = Ok w' -> n = lam w from - (r + COLLECT_BUFFER) -> 0 < n ->
  lam w k <= lam w' k \/ (k = from /\ r <= lam w' k).
Proof.
  intros Hmv Hn H0. apply move_lamports_ok in Hmv as (_ & _ & _ & _ & Hne & Heq & Hoth). unfold COLLECT_BUFFER in Hn.
  destruct (decide (k = from)) as [->|Nf].
  - destruct (decide (from = to)) as [He|He]; [rewrite (Heq He); left; lia|]. destruct (Hne He) as [Hx _]. right. split; [done|lia].
  - left. destruct (decide (k = to)) as [->|Nt]; [|rewrite Hoth by done; lia]. destruct (Hne (not_eq_sym Nf)) as [_ Hx]. lia.
Qed.
Lemma lockup_lam E sg ix w w' evs k d : lockup_effect E sg w ix w' evs -> wdat w !! k = Some d ->
  lam w k <= lam w' k \/ (exists t, d = DLockupTreasury t) /\ rent_min E 105 <= lam w' k.
Proof.
  intros Heff Hk. assert (wdat w !! k <> None) as Hn by congruence.
  destruct Heff as [a f p c tb nb ? F|ix a p ct nc cm dm sb s1 nm c0 c1 ? ? Hix Hargs F|a s1 st ? ? Hsi Hse Hst ? ? ? ? -> ->|a m s1 vt dt st ? ? F
      |? a am tr m nt s1 s' vt dt fee wd ? ? Hix Ham F|a tr n' ? Hc Htr ? ? Hn' H0 Hmv].
  - left. exact (ds_mono _ _ _ (if_step _ _ _ _ _ _ _ _ _ _ F) _ Hn).
  - left. exact (ds_mono _ _ _ (rf_step _ _ _ _ _ _ _ _ _ _ _ _ _ _ _ _ F) _ Hn).
  - left. rewrite lam_set_dat. lia.
  - left. exact (ds_mono _ _ _ (pf_step _ _ _ _ _ _ _ _ _ _ _ _ _ _ _ (cf_pay _ _ _ _ _ _ _ _ _ _ _ F)) _ Hn).
  - left. exact (ds_mono _ _ _ (pf_step _ _ _ _ _ _ _ _ _ _ _ _ _ _ _ (wf_pay _ _ _ _ _ _ _ _ _ _ _ _ _ _ _ _ F)) _ Hn).
  - destruct (collect_keeps k _ _ _ _ _ _ Hmv Hn' H0) as [?|[-> Hr]]; [by left|right]. split; [|exact Hr]. exists tr. congruence.
Qed.
Lemma merkle_lam E sg ix w w' evs k d : merkle_effect E sg w ix w' evs -> wdat w !! k = Some d ->
  lam w k <= lam w' k \/ (exists t, d = DMerkleTreasury t) /\ rent_min E 105 <= lam w' k.
Proof.
  intros Heff Hk. assert (wdat w !! k <> None) as Hn by congruence.
  destruct Heff as [i t1 f p c1 b ? Hi Hti Hn0 Hne Hd Hr|a g m b c1 ? ? Hi Hm Hmp Hf Hn1 Hn2 Hne Hv Hc Hsz Hd ->|a i am pf tr m c1 vt dt fee ? ? F
    |a am m c1 vt dt ? ? F|a tr n ? Hc Htr Hcc Hca Hn' H0 Hmv].
  - left. exact (ds_mono _ _ _ Hd _ Hn).
  - left. exact (ds_mono _ _ _ Hd _ Hn).
  - left. exact (ds_mono _ _ _ (pf_step _ _ _ _ _ _ _ _ _ _ _ _ _ _ _ (lf_pay _ _ _ _ _ _ _ _ _ _ _ _ _ _ _ F)) _ Hn).
  - left. exact (ds_mono _ _ _ (pf_step _ _ _ _ _ _ _ _ _ _ _ _ _ _ _ (bf_pay _ _ _ _ _ _ _ _ _ _ _ F)) _ Hn).
  - destruct (collect_keeps k _ _ _ _ _ _ Hmv Hn' H0) as [?|[-> Hr]]; [by left|right]. split; [|exact Hr]. exists tr. congruence.
Qed.

Lemma step_owned E C w a evs w' k d p n s : env_ok E -> token_sane E w -> step E C w a evs w' -> wdat w !! k = Some d ->
  owned d = Some (p, n, s) ->
  (exists d', wdat w' !! k = Some d' /\ owned d' = Some (p, n, s)) /\ (lam w k <= lam w' k \/ rent_min E s <= lam w' k).
Proof.
  intros HE Hts Hst Hk Ho. pose proof (step_keeps _ _ _ _ _ _ HE Hts Hst) as [HL HM _ _]. pose proof (owned_prog _ _ _ _ Ho) as Hop.
  assert (forall q, untouched E q w w' -> p = q -> (exists d', wdat w' !! k = Some d' /\ owned d' = Some (p, n, s)) /\ (lam w k <= lam w' k \/ rent_min E s <= lam w' k)) as Hun.
  { intros q U ->. destruct (u_data _ _ _ _ U _ _ Hk Hop) as [H1 H2]. split; [by exists d|by left]. }
  assert (p = PLockup \/ p = PMerkle) as Hp by (destruct d; try discriminate; injection Ho as <- _ _; auto).
  assert (forall x y, owned x = Some y -> owned x = owned d -> y = (p, n, s)) as Hsame by (intros x y H1 H2; congruence).
  destruct Hst as [sg ix evs w' Hsg Hx|sg ix evs w' Hsg Hx|w' Hot Hc].
  - destruct Hp as [->| ->]; [|by apply (Hun PMerkle); [apply HM|]].
    pose proof (lockup_exec_effect _ _ _ _ _ _ Hx) as [_ Heff]. destruct (lockup_frame _ _ _ _ _ _ HE Hsg Hx) as (S & F & _).
    destruct (fr_own _ _ _ _ _ F _ _ Hk Hop) as (d' & Hk' & Hop'). destruct (prog_owned _ _ ltac:(by left) Hop') as (n' & s' & Ho').
    assert (owned d' = Some (PLockup, n, s)) as Hod.
    { destruct (lockup_back _ _ _ _ _ _ _ _ _ Heff Hk' Ho') as [(d0 & Hd0 & Ho0)|[Hnone _]]; congruence. }
    split; [by exists d'|]. destruct (lockup_lam _ _ _ _ _ _ _ _ Heff Hk) as [?|[(t & ->) Hr]]; [by left|right]. injection Ho as <- <-. exact Hr.
  - destruct Hp as [->| ->]; [by apply (Hun PLockup); [apply HL|]|].
    pose proof (merkle_exec_effect _ _ _ _ _ _ Hx) as [_ Heff]. destruct (merkle_frame _ _ _ _ _ _ HE Hsg Hx) as (S & F & _).
    destruct (fr_own _ _ _ _ _ F _ _ Hk Hop) as (d' & Hk' & Hop'). destruct (prog_owned _ _ ltac:(by right) Hop') as (n' & s' & Ho').
    assert (owned d' = Some (PMerkle, n, s)) as Hod.
    { destruct (merkle_back _ _ _ _ _ _ _ _ _ Heff Hk' Ho') as [(d0 & Hd0 & Ho0)|[Hnone _]]; congruence. }
    split; [by exists d'|]. destruct (merkle_lam _ _ _ _ _ _ _ _ Heff Hk) as [?|[(t & ->) Hr]]; [by left|right]. injection Ho as <- <-. exact Hr.
  - destruct Hp as [->| ->]; [by apply (Hun PLockup); [apply HL|]|by apply (Hun PMerkle); [apply HM|]].
Qed.

(** No account of the programs is ever closed or turned into one of another kind. *)
Theorem C67_accounts_last : forall E w w2 k d p n s, env_ok E -> reachable E w -> later E w w2 ->
  wdat w !! k = Some d -> owned d = Some (p, n, s) -> exists d2, wdat w2 !! k = Some d2 /\ owned d2 = Some (p, n, s).
Proof.
  intros E w w2 k d p n s HE Hre [tr Hr] Hk Ho. pose proof (reachable_inv _ _ HE Hre) as Hi.
  induction Hr as [|tr w1 a evs w2 Hr IH Hs]; [by exists d|]. destruct IH as (d1 & Hk1 & Ho1).
  exact (proj1 (step_owned _ _ _ _ _ _ _ _ _ _ _ HE (inv_sane _ _ (run_inv _ _ _ _ _ HE Hi Hr)) Hs Hk1 Ho1)).
Qed.
(** Each of them holds at least the rent minimum of its size: the runtime never reclaims it. *)
Theorem C67_rent_exempt : forall E w k d p n s, env_ok E -> reachable E w -> wdat w !! k = Some d -> owned d = Some (p, n, s) ->
  rent_min E s <= lam w k.
Proof.
  intros E w k d p n s HE (tr & w0 & Hg & Hr). pose proof (genesis_inv _ _ Hg) as Hi. revert k d p n s.
  induction Hr as [|tr w a evs w' Hr IH Hs]; intros k d p n s Hk Ho.
  - pose proof (g_data _ _ Hg _ _ Hk). pose proof (owned_prog _ _ _ _ Ho). congruence.
  - pose proof (inv_sane _ _ (run_inv _ _ _ _ _ HE Hi Hr)) as Hts.
    destruct (wdat w !! k) as [d0|] eqn:Hk0.
    + assert (owned d0 = Some (p, n, s)) as Ho0.
      { pose proof (step_keeps _ _ _ _ _ _ HE Hts Hs) as [HL HM _ _]. pose proof (owned_prog _ _ _ _ Ho) as Hop.
        assert (p = PLockup \/ p = PMerkle) as Hp by (destruct d; try discriminate; injection Ho as <- _ _; auto).
        destruct Hs as [sg ix evs w' Hsg Hx|sg ix evs w' Hsg Hx|w' Hot Hc].
        - apply lockup_exec_effect in Hx as [_ Heff]. destruct (lockup_back _ _ _ _ _ _ _ _ _ Heff Hk Ho) as [(d1 & ? & ?)|[? _]]; congruence.
        - apply merkle_exec_effect in Hx as [_ Heff]. destruct (merkle_back _ _ _ _ _ _ _ _ _ Heff Hk Ho) as [(d1 & ? & ?)|[? _]]; congruence.
        - destruct Hp as [->| ->].
          + pose proof (u_new _ _ _ _ (HL eq_refl) _ _ Hk Hop). congruence.
          + pose proof (u_new _ _ _ _ (HM eq_refl) _ _ Hk Hop). congruence. }
      specialize (IH _ _ _ _ _ Hk0 Ho0).
      destruct (step_owned _ _ _ _ _ _ _ _ _ _ _ HE Hts Hs Hk0 Ho0) as [_ [?|?]]; [etransitivity; eassumption|assumption].
    + pose proof (step_keeps _ _ _ _ _ _ HE Hts Hs) as [HL HM _ _]. pose proof (owned_prog _ _ _ _ Ho) as Hop.
      assert (p = PLockup \/ p = PMerkle) as Hp by (destruct d; try discriminate; injection Ho as <- _ _; auto).
      destruct Hs as [sg ix evs w' Hsg Hx|sg ix evs w' Hsg Hx|w' Hot Hc].
      * destruct (exec_bill E sg (IL ix) _ _ _ HE Hx) as (fee & _ & _ & _ & Hf & _).
        apply lockup_exec_effect in Hx as [_ Heff]. destruct (lockup_back _ _ _ _ _ _ _ _ _ Heff Hk Ho) as [(d1 & ? & ?)|[_ Hin]]; [congruence|].
        exact (proj2 (proj1 Hf _ _ Hin Hk0)).
      * destruct (exec_bill E sg (IM ix) _ _ _ HE Hx) as (fee & _ & _ & _ & Hf & _).
        apply merkle_exec_effect in Hx as [_ Heff]. destruct (merkle_back _ _ _ _ _ _ _ _ _ Heff Hk Ho) as [(d1 & ? & ?)|[_ Hin]]; [congruence|].
        exact (proj2 (proj1 Hf _ _ Hin Hk0)).
      * destruct Hp as [->| ->].
        -- pose proof (u_new _ _ _ _ (HL eq_refl) _ _ Hk Hop). congruence.
        -- pose proof (u_new _ _ _ _ (HM eq_refl) _ _ Hk Hop). congruence.
Qed.
(** The rent paid for them is never paid out again; only fees leave, and only from the treasuries. *)
Definition is_treasury (d : adata) : bool := match d with DLockupTreasury _ | DMerkleTreasury _ => true | _ => false end.
Theorem C67_rent_locked : forall E w w2 k d p n s, env_ok E -> reachable E w -> later E w w2 ->
  wdat w !! k = Some d -> owned d = Some (p, n, s) -> is_treasury d = false -> lam w k <= lam w2 k.
Proof.
  intros E w w2 k d p n s HE Hre [tr Hr] Hk Ho Ht. pose proof (reachable_inv _ _ HE Hre) as Hi.
  cut (lam w k <= lam w2 k /\ exists d2, wdat w2 !! k = Some d2 /\ owned d2 = Some (p, n, s)); [by intros []|].
  induction Hr as [|tr w1 a evs w2 Hr IH Hs]; [split; [lia|by exists d]|]. destruct IH as (Hl & d1 & Hk1 & Ho1).
  pose proof (inv_sane _ _ (run_inv _ _ _ _ _ HE Hi Hr)) as Hts.
  split; [|exact (proj1 (step_owned _ _ _ _ _ _ _ _ _ _ _ HE Hts Hs Hk1 Ho1))].
  assert (is_treasury d1 = false) as Ht1.
  { assert (owned d1 = owned d) as He by congruence. clear - He Ht. destruct d; try discriminate; destruct d1; try discriminate; done. }
  etransitivity; [exact Hl|]. pose proof (step_keeps _ _ _ _ _ _ HE Hts Hs) as [HL HM _ _]. pose proof (owned_prog _ _ _ _ Ho1) as Hop.
  destruct Hs as [sg ix evs w2 Hsg Hx|sg ix evs w2 Hsg Hx|w2 Hot Hc].
  - apply lockup_exec_effect in Hx as [_ Heff]. destruct (lockup_lam _ _ _ _ _ _ _ _ Heff Hk1) as [?|[(t & ->) _]]; [done|discriminate].
  - apply merkle_exec_effect in Hx as [_ Heff]. destruct (merkle_lam _ _ _ _ _ _ _ _ Heff Hk1) as [?|[(t & ->) _]]; [done|discriminate].
  - assert (p = PLockup \/ p = PMerkle) as [->| ->] by (destruct d; try discriminate; injection Ho as <- _ _; auto).
    + exact (proj2 (u_data _ _ _ _ (HL eq_refl) _ _ Hk1 Hop)).
    + exact (proj2 (u_data _ _ _ _ (HM eq_refl) _ _ Hk1 Hop)).
Qed.

(** ** Examples *)
(** A third stream in the sample history (six accounts; rent as on Solana, 6960 lamports per byte and 128 bytes more), and
    a claim for somebody by a third party, who opens the recipient's token account and the receipt. *)
Example C66_example :
  is_ok (exec E0 [kSender] (IL (LCreateTs (create_for 3) dep3)) w1) = true /\
  rent_sum E0 w1 (opens E0 (IL (LCreateTs (create_for 3) dep3))) = 10370400 /\
  levies E0 kSender (metadata_made (IL (LCreateTs (create_for 3) dep3))) = [(kSender, ca_metadata (create_for 3), 15115600)] /\
  is_ok (exec E0 [kOther] (IM (MClaim (claim_by kOther 1500 0 2 kCollector) 2 200 [nodeAB])) w6) = true /\
  bill E0 w6 (IM (MClaim (claim_by kOther 1500 0 2 kCollector) 2 200 [nodeAB])) 0 =
    [(kOther, kMTreasury, 0); (kOther, ata kCollector kToken SplToken, 2039280);
     (kOther, la_receipt (claim_by kOther 1500 0 2 kCollector), 946560)].
Proof. split; [vm_compute; reflexivity|]. split; [vm_compute; reflexivity|]. split; [vm_compute; reflexivity|]. split; vm_compute; reflexivity. Qed.
Example C67_example : reachable E0 w1 /\ later E0 w1 w2 /\
  (exists s, wdat w1 !! kStream kSender 1 = Some (DStream s) /\ owned (DStream s) = Some (PLockup, 2, 156)) /\ lam w1 (kStream kSender 1) = 1976640.
Proof.
  split; [exact (history_reach _ _ _ w1_hist)|]. split; [exact (stage_later _ _ _ _ _ w1_hist stage2)|].
  split; [|vm_compute; reflexivity]. eexists. split; [vm_compute; reflexivity|reflexivity].
Qed.

Print Assumptions C66_bill.
Print Assumptions C66_payer.
Print Assumptions C67_accounts_last.
Print Assumptions C67_rent_exempt.
Print Assumptions C67_rent_locked.
