(** The frame of create and initialize, and of every step. *)
From Verif Require Export Frame2.

Lemma tok_sum_insert_same D m k t t' : D !! k = Some (DToken t) -> t_mint t' = t_mint t ->
  tok_sum (<[k:=DToken t']> D) m = tok_sum D m + (if t_mint t =? m then t_amount t' - t_amount t else 0).
Proof. intros Hk Hm. rewrite tok_sum_insert, Hk. simpl. rewrite Hm. destruct (t_mint t =? m); lia. Qed.
Lemma tok_sum_insert_none D m k t : D !! k = None -> t_mint t <> m ->
  tok_sum (<[k:=DToken t]> D) m = tok_sum D m.
Proof. intros Hk Hm. rewrite tok_sum_insert_token by done. rewrite (proj2 (Z.eqb_neq _ _)) by done. lia. Qed.

Lemma create_neq E sg a p w w' evs ct nc cm dm sb s name c0 c1 :
  create_facts E sg a p w w' evs ct nc cm dm sb s name c0 c1 ->
  NoDup [ca_nft_mint a; ca_recipient_nft_ata a; ca_stream a; ca_vault a; ca_metadata a; ca_edition a;
         ca_creator_ata a; ca_nft_collection_data a; ca_coll_metadata a].
Proof.
  intros F. destruct F. destruct rf_coll_md_kind as (? & ? & ? & ? & ? & ? & -> & _).
  nodup_neq rf_distinct.
  pose proof (some_none_ne _ _ _ _ rf_creator_ata rf_fresh_nft).
  pose proof (some_none_ne _ _ _ _ rf_creator_ata rf_fresh_nft_ata).
  pose proof (some_none_ne _ _ _ _ rf_creator_ata rf_fresh_stream).
  pose proof (some_none_ne _ _ _ _ rf_creator_ata rf_fresh_vault).
  pose proof (some_none_ne _ _ _ _ rf_creator_ata rf_fresh_metadata).
  pose proof (some_none_ne _ _ _ _ rf_creator_ata rf_fresh_edition).
  pose proof (some_none_ne _ _ _ _ rf_nc rf_fresh_nft).
  pose proof (some_none_ne _ _ _ _ rf_nc rf_fresh_nft_ata).
  pose proof (some_none_ne _ _ _ _ rf_nc rf_fresh_stream).
  pose proof (some_none_ne _ _ _ _ rf_nc rf_fresh_vault).
  pose proof (some_none_ne _ _ _ _ rf_nc rf_fresh_metadata).
  pose proof (some_none_ne _ _ _ _ rf_nc rf_fresh_edition).
  pose proof (some_none_ne _ _ _ _ rf_coll_md rf_fresh_nft).
  pose proof (some_none_ne _ _ _ _ rf_coll_md rf_fresh_nft_ata).
  pose proof (some_none_ne _ _ _ _ rf_coll_md rf_fresh_stream).
  pose proof (some_none_ne _ _ _ _ rf_coll_md rf_fresh_vault).
  pose proof (some_none_ne _ _ _ _ rf_coll_md rf_fresh_metadata).
  pose proof (some_none_ne _ _ _ _ rf_coll_md rf_fresh_edition).
  not_key rf_creator_ata (ca_creator_ata a) (ca_nft_collection_data a).
  not_key rf_creator_ata (ca_creator_ata a) (ca_coll_metadata a).
  not_key rf_coll_md (ca_coll_metadata a) (ca_nft_collection_data a).
  nodup_solve.
Qed.

(** The new world, account by account. *)
Record create_effect (E : env) (a : create_accs) (s : stream_data) (name : bytes) (ct : tokacc) (nc : nft_collection) (cmd : adata)
    (w w' : world) : Prop := {
  ce_vault : wdat w' !! ca_vault a = Some (DToken (TokAcc (ca_deposit_tp a) (ca_deposit_mint a) (ca_stream a)
    (received E (ca_deposit_mint a) (ca_creator_ata a) (ca_vault a) (wclock w) (deposited (s_amounts s))) false));
  ce_creator : wdat w' !! ca_creator_ata a = Some (DToken (with_amount ct (t_amount ct - deposited (s_amounts s))));
  ce_nc : wdat w' !! ca_nft_collection_data a = Some (DNftCollection (NftCollection (nc_total_supply nc + 1) (nc_bump nc)));
  ce_cmd : wdat w' !! ca_coll_metadata a = Some cmd;
  ce_metadata : wdat w' !! ca_metadata a = Some (DMetadata (ca_nft_mint a) (ca_coll_mint a) name (Some (ca_coll_mint a)) None false);
  ce_edition : wdat w' !! ca_edition a = Some (DEdition (ca_nft_mint a));
  ce_nft : wdat w' !! ca_nft_mint a = Some (DMint (Mint (ca_nft_tp a) 1 0 (Some (ca_edition a)) (Some (ca_edition a))));
  ce_nft_ata : wdat w' !! ca_recipient_nft_ata a = Some (DToken (TokAcc (ca_nft_tp a) (ca_nft_mint a) (ca_recipient a) 1 false));
  ce_stream : wdat w' !! ca_stream a = Some (DStream s);
  ce_other : forall k, k ∉ [ca_nft_mint a; ca_recipient_nft_ata a; ca_stream a; ca_vault a; ca_metadata a; ca_edition a;
         ca_creator_ata a; ca_nft_collection_data a; ca_coll_metadata a] -> wdat w' !! k = wdat w !! k }.

Lemma create_effects E sg a p w w' evs ct nc cm dm sb s name c0 c1 :
  create_facts E sg a p w w' evs ct nc cm dm sb s name c0 c1 -> create_effect E a s name ct nc c1 w w'.
Proof.
  intros F. pose proof (create_neq _ _ _ _ _ _ _ _ _ _ _ _ _ _ _ _ F) as Hnd.
  pose proof (ds_dat _ _ _ (rf_step _ _ _ _ _ _ _ _ _ _ _ _ _ _ _ _ F)) as Hd.
  assert (p_deposit p = deposited (s_amounts s)) as Hdep by (by rewrite (rf_s _ _ _ _ _ _ _ _ _ _ _ _ _ _ _ _ F)).
  rewrite Hdep in Hd. clear F Hdep.
  nodup_neq Hnd. unfold create_map in Hd.
  split; rewrite Hd; mlook; try done.
  intros k Hk. rewrite !not_elem_of_cons in Hk. destruct Hk as (? & ? & ? & ? & ? & ? & ? & ? & ? & _). mlook. done.
Qed.

Lemma create_tok_sum E sg a p w w' evs ct nc cm dm sb s name c0 c1 m :
  create_facts E sg a p w w' evs ct nc cm dm sb s name c0 c1 -> plain E m = true ->
  tok_sum (wdat w') m = tok_sum (wdat w) m + (if m =? ca_nft_mint a then 1 else 0).
Proof.
  intros F Hpl. pose proof (create_neq _ _ _ _ _ _ _ _ _ _ _ _ _ _ _ _ F) as Hnd.
  pose proof (ds_dat _ _ _ (rf_step _ _ _ _ _ _ _ _ _ _ _ _ _ _ _ _ F)) as Hd. nodup_neq Hnd.
  destruct F. destruct rf_coll_md_kind as (? & ? & ? & ? & ? & ? & -> & ->).
  rewrite Hd. unfold create_map.
  rewrite tok_sum_insert_token by (mlook; done).
  rewrite (tok_sum_insert_same _ _ _ ct) by (mlook; done).
  rewrite tok_sum_insert_zero by (done || intros ?; mlook; congruence).
  rewrite tok_sum_insert_zero by (done || intros ?; mlook; congruence).
  rewrite tok_sum_insert_zero by (done || intros ?; mlook; congruence).
  rewrite tok_sum_insert_zero by (done || intros ?; mlook; congruence).
  rewrite tok_sum_insert_zero by (done || intros ?; mlook; congruence).
  rewrite tok_sum_insert_token by (mlook; done).
  rewrite tok_sum_insert_zero by (done || intros ?; mlook; congruence).
  simpl. rewrite rf_creator_mint. rewrite (Z.eqb_sym (ca_nft_mint a)).
  assert (deposited (s_amounts s) = p_deposit p) as -> by (by rewrite rf_s).
  destruct (ca_deposit_mint a =? m) eqn:Hm, (m =? ca_nft_mint a); bools; try rewrite received_plain by congruence; lia.
Qed.

Lemma create_frame E sg a p w w' evs ct nc cm dm sb s name c0 c1 : env_ok E -> 0 <= p_deposit p <= U64_MAX ->
  create_facts E sg a p w w' evs ct nc cm dm sb s name c0 c1 -> frame E PLockup (ca_creator a) w w'.
Proof.
  intros HE Hdep F. pose proof (create_effects _ _ _ _ _ _ _ _ _ _ _ _ _ _ _ _ F) as Heff; destruct Heff.
  pose proof (fun m => create_tok_sum _ _ _ _ _ _ _ _ _ _ _ _ _ _ _ _ m F) as Hsum.
  pose proof (create_neq _ _ _ _ _ _ _ _ _ _ _ _ _ _ _ _ F) as Hnd.
  destruct F.
  assert (Hsdep : deposited (s_amounts s) = p_deposit p) by (by rewrite rf_s).
  destruct rf_coll_md_kind as (? & ? & ? & ? & ? & ? & -> & ->).
  destruct rf_step as [Hd Hc Ht Hl].
  pose proof (received_range E (ca_deposit_mint a) (ca_creator_ata a) (ca_vault a) (wclock w) (p_deposit p) HE ltac:(lia)) as Hrec.
  rewrite Hsdep in *.
  assert (Hcases : forall k, k ∈ [ca_nft_mint a; ca_recipient_nft_ata a; ca_stream a; ca_vault a; ca_metadata a; ca_edition a;
         ca_creator_ata a; ca_nft_collection_data a; ca_coll_metadata a] \/ wdat w' !! k = wdat w !! k).
  { intros k. match goal with |- k ∈ ?l \/ _ => destruct (decide (k ∈ l)) end; auto. }
  apply frame_of; auto.
  - intros k. destruct (Hcases k) as [Hk|]; [|by left]. right.
    rewrite !elem_of_cons in Hk.
    destruct Hk as [->|[->|[->|[->|[->|[->|[->|[->|[->|Hk]]]]]]]]]; [..|by apply elem_of_nil in Hk];
      (eexists; split; [eassumption|]);
      rewrite ?rf_fresh_nft, ?rf_fresh_nft_ata, ?rf_fresh_stream, ?rf_fresh_vault, ?rf_fresh_metadata, ?rf_fresh_edition,
        ?rf_creator_ata, ?rf_nc, ?rf_coll_md; simpl.
    + split; [by left|]. left. destruct rf_nft_mint_addr as [b Hb]. by apply fpa_pda in Hb as [? _].
    + split; [by left|]. right; left. by apply ata_pda in rf_nft_ata_addr as [? _].
    + split; [by right|]. left. by apply fpa_pda in rf_stream_addr as [? _].
    + split; [by left|]. right; left. by apply ata_pda in rf_vault_addr as [? _].
    + split; [by left|]. right; right. destruct rf_metadata_addr as [b Hb]. by apply fpa_pda in Hb as [? _].
    + split; [by left|]. right; right. destruct rf_edition_addr as [b Hb]. by apply fpa_pda in Hb as [? _].
    + right; right. eexists _, _. split; [done|]. split; [done|]. split; [done|]. intros. congruence.
    + left. done.
    + right; left. done.
  - intros k d Hk _. apply Hl. congruence.
  - intros [Hr Hs]. split.
    + intros k t Hk. destruct (Hcases k) as [Hkk|Heq]; [|rewrite Heq in Hk; eauto].
      rewrite !elem_of_cons in Hkk.
      destruct Hkk as [->|[->|[->|[->|[->|[->|[->|[->|[->|Hkk]]]]]]]]]; [..|by apply elem_of_nil in Hkk];
        simplify_eq; simpl; try (unfold U64_MAX in *; lia).
      pose proof (Hr _ _ rf_creator_ata). lia.
    + intros m Hm. rewrite total_balance_sum, Hsum by (by apply (eo_nft _ HE)). pose proof (Hs m Hm) as Hsm. rewrite total_balance_sum in Hsm.
      destruct (m =? ca_nft_mint a) eqn:Em; bools.
      * subst m. unfold supply in *. rewrite ce_nft0. rewrite rf_fresh_nft in Hsm. simpl. lia.
      * assert (supply w' m = supply w m) as ->; [|lia].
        apply supply_other. intros mt. destruct (Hcases m) as [Hkk|Heq]; [|by rewrite Heq].
        rewrite !elem_of_cons in Hkk.
        destruct Hkk as [->|[->|[->|[->|[->|[->|[->|[->|[->|Hkk]]]]]]]]]; [..|by apply elem_of_nil in Hkk]; try done; split; congruence.
Qed.

(** ** initialize *)

Lemma initialize_frame E sg a f p c w w' evs : env_ok E ->
  initialize E sg a f p c w = Ok (w', evs) -> frame E PLockup (ia_initializer a) w w'.
Proof.
  intros HE (_ & tb & nb & F)%initialize_inv. destruct F.
  assert (Hnd := if_distinct). nodup_neq Hnd.
  rewrite !Forall_cons in if_fresh. destruct if_fresh as (Hf1 & Hf2 & Hf3 & Hf4 & Hf5 & Hf6 & _).
  destruct if_step as [Hd Hc Ht Hl].
  assert (Hcases : forall k, k ∈ [ia_metadata a; ia_edition a; ia_ata a; ia_mint a; ia_nft_collection_data a; ia_treasury a]
    \/ wdat w' !! k = wdat w !! k).
  { intros k. match goal with |- k ∈ ?l \/ _ => destruct (decide (k ∈ l)) as [|Hk] end; auto. right.
    rewrite !not_elem_of_cons in Hk. destruct Hk as (? & ? & ? & ? & ? & ? & _). rewrite Hd. mlook. done. }
  assert (E1 : wdat w' !! ia_metadata a = Some (DMetadata (ia_mint a) (ia_mint a) COLLECTION_NAME None (Some 0) true)) by (rewrite Hd; mlook; done).
  assert (E2 : wdat w' !! ia_edition a = Some (DEdition (ia_mint a))) by (rewrite Hd; mlook; done).
  assert (E3 : wdat w' !! ia_ata a = Some (DToken (TokAcc (ia_nft_tp a) (ia_mint a) (ia_treasury a) 1 false))) by (rewrite Hd; mlook; done).
  assert (E4 : wdat w' !! ia_mint a = Some (DMint (Mint (ia_nft_tp a) 1 0 (Some (ia_edition a)) (Some (ia_edition a))))) by (rewrite Hd; mlook; done).
  assert (E5 : wdat w' !! ia_nft_collection_data a = Some (DNftCollection (NftCollection 0 nb))) by (rewrite Hd; mlook; done).
  assert (E6 : wdat w' !! ia_treasury a = Some (DLockupTreasury (Treasury tb f p c))) by (rewrite Hd; mlook; done).
  assert (Hsum : forall m, tok_sum (wdat w') m = tok_sum (wdat w) m + (if m =? ia_mint a then 1 else 0)).
  { intros m. rewrite Hd.
    rewrite tok_sum_insert_zero by (done || intros ?; mlook; congruence).
    rewrite tok_sum_insert_zero by (done || intros ?; mlook; congruence).
    rewrite tok_sum_insert_token by (mlook; done).
    rewrite tok_sum_insert_zero by (done || intros ?; mlook; congruence).
    rewrite tok_sum_insert_zero by (done || intros ?; mlook; congruence).
    rewrite tok_sum_insert_zero by (done || intros ?; mlook; congruence).
    simpl. by rewrite Z.eqb_sym. }
  apply frame_of; auto.
  - intros k. destruct (Hcases k) as [Hk|]; [|by left]. right.
    rewrite !elem_of_cons in Hk.
    destruct Hk as [->|[->|[->|[->|[->|[->|Hk]]]]]]; [..|by apply elem_of_nil in Hk];
      (eexists; split; [eassumption|]); rewrite ?Hf1, ?Hf2, ?Hf3, ?Hf4, ?Hf5, ?Hf6; simpl.
    + split; [by left|]. right; right. destruct if_metadata_addr as [b Hb]. by apply fpa_pda in Hb as [? _].
    + split; [by left|]. right; right. destruct if_edition_addr as [b Hb]. by apply fpa_pda in Hb as [? _].
    + split; [by left|]. right; left. by apply ata_pda in if_ata_addr as [? _].
    + split; [by left|]. left. destruct if_mint_addr as [b Hb]. by apply fpa_pda in Hb as [? _].
    + split; [by right|]. left. by apply fpa_pda in if_nc_addr as [? _].
    + split; [by right|]. left. by apply fpa_pda in if_treasury_addr as [? _].
  - intros k d Hk _. apply Hl. congruence.
  - intros [Hr Hs]. split.
    + intros k t Hk. destruct (Hcases k) as [Hkk|Heq]; [|rewrite Heq in Hk; eauto].
      rewrite !elem_of_cons in Hkk.
      destruct Hkk as [->|[->|[->|[->|[->|[->|Hkk]]]]]]; [..|by apply elem_of_nil in Hkk];
        simplify_eq; simpl; unfold U64_MAX in *; lia.
    + intros m Hm. rewrite total_balance_sum, Hsum. pose proof (Hs m Hm) as Hsm. rewrite total_balance_sum in Hsm.
      destruct (m =? ia_mint a) eqn:Em; bools.
      * subst m. unfold supply in *. rewrite E4. rewrite Hf3 in Hsm. simpl. lia.
      * assert (supply w' m = supply w m) as ->; [|lia].
        apply supply_other. intros mt. destruct (Hcases m) as [Hkk|Heq]; [|by rewrite Heq].
        rewrite !elem_of_cons in Hkk.
        destruct Hkk as [->|[->|[->|[->|[->|[->|Hkk]]]]]]; [..|by apply elem_of_nil in Hkk]; try done; split; congruence.
Qed.
