(** C32: no instruction creates or destroys tokens or lamports, except that initialize and create mint one NFT. *)
From Verif Require Export PropFees.

(** The NFT an instruction mints. *)
Definition minted_lockup (ix : lockup_ix) (m : key) : Z :=
  match ix with
  | LInitialize a _ _ _ => if m =? ia_mint a then 1 else 0
  | LCreateTs a _ | LCreateDur a _ => if m =? ca_nft_mint a then 1 else 0
  | _ => 0
  end.

Lemma mint_iff E p S w w' : frame E p S w w' -> (forall m mt, wdat w' !! m = Some (DMint mt) -> wdat w !! m = Some (DMint mt)) ->
  forall m, supply w' m = supply w m.
Proof.
  intros F H m. apply supply_other. intros mt. split; [apply H|]. intros Hm. by apply (fr_other _ _ _ _ _ F).
Qed.
Lemma payout_total E w D own newd vault dest vt dt amount tp mintk owner auth w' d0 m :
  payout_facts E w D own newd vault dest vt dt amount tp mintk owner auth w' ->
  wdat w !! vault = Some (DToken vt) -> wdat w !! own = Some d0 -> is_token d0 = false -> is_token newd = false ->
  (forall i, wdat w !! i <> None -> D !! i = wdat w !! i) -> (wdat w !! dest = None -> D !! dest = None) ->
  tok_sum D m = tok_sum (wdat w) m -> plain E m = true -> total_balance w' m = total_balance w m.
Proof.
  intros F Hv Ho Hd0 Hn HD Hdest Hs Hpl. destruct F. rewrite !total_balance_sum, (ds_dat _ _ _ pf_step), <- Hs.
  apply (payout_tok_sum _ _ d0); [rewrite HD; congruence|done|done|rewrite HD; congruence| |congruence|intros ?; apply received_plain; congruence].
  destruct pf_dest as [Hd|[Hd Hdt]]; [left; rewrite HD; congruence|right]. split; [by apply Hdest|]. by rewrite Hdt.
Qed.

Theorem C32_lockup : forall E sg ix w w' evs, env_ok E -> signers_ok E sg -> lockup_exec E sg ix w = Ok (w', evs) ->
  lam_total w' = lam_total w /\
  forall m, (plain E m = true -> total_balance w' m = total_balance w m + minted_lockup ix m) /\ supply w' m = supply w m + minted_lockup ix m.
Proof.
  intros E sg ix w w' evs HE Hsg Hx. destruct (lockup_frame _ _ _ _ _ _ HE Hsg Hx) as (S & F0 & _).
  split; [exact (fr_total _ _ _ _ _ F0)|]. intros m. apply lockup_exec_effect in Hx as [_ Heff].
  destruct Heff as [a f p c tb nb ? F|ix a p ct nc cm dm sb s1 nm c0 c1 ? ? Hix Hargs F|a s1 st ? ? Hsi Hse Hs ? ? ? ? -> ->|a mt s1 vt dt st ? ? F
      |ix a am tr mt nt s1 s' vt dt fee wd ? ? Hix Ham F|a tr n ? Hc Htr ? ? -> ? Hmv].
  - destruct F. rewrite !Forall_cons in if_fresh. destruct if_fresh as (? & ? & ? & ? & ? & ? & _). nodup_neq if_distinct. split.
    + intros Hpl. rewrite !total_balance_sum, (ds_dat _ _ _ if_step).
      rewrite tok_sum_insert_zero by (done || intros ?; mlook; congruence).
      rewrite tok_sum_insert_zero by (done || intros ?; mlook; congruence).
      rewrite tok_sum_insert_token by (mlook; done).
      rewrite tok_sum_insert_zero by (done || intros ?; mlook; congruence).
      rewrite tok_sum_insert_zero by (done || intros ?; mlook; congruence).
      rewrite tok_sum_insert_zero by (done || intros ?; mlook; congruence).
      simpl. rewrite (Z.eqb_sym m). done.
    + simpl. destruct (Z.eqb_spec m (ia_mint a)) as [->|Hne].
      * unfold supply. rewrite (ds_dat _ _ _ if_step). mlook. match goal with H : wdat w !! ia_mint a = None |- _ => rewrite H end. done.
      * rewrite (supply_other w w'); [lia|]. intros mt. rewrite (ds_dat _ _ _ if_step).
        split; [|intros Hm; rewrite !lookup_insert_ne by congruence; done].
        intros Hm. do 3 (apply lookup_insert_Some in Hm as [[_ ?]|[_ Hm]]; [done|]).
        apply lookup_insert_Some in Hm as [[? _]|[_ Hm]]; [congruence|].
        do 2 (apply lookup_insert_Some in Hm as [[_ ?]|[_ Hm]]; [done|]). done.
  - assert (minted_lockup ix m = if m =? ca_nft_mint a then 1 else 0) as -> by (destruct Hix as [->|(q & -> & _)]; done). split.
    + intros Hpl. rewrite !total_balance_sum. exact (create_tok_sum _ _ _ _ _ _ _ _ _ _ _ _ _ _ _ _ m F Hpl).
    + pose proof (create_effects _ _ _ _ _ _ _ _ _ _ _ _ _ _ _ _ F) as Hc. destruct (Z.eqb_spec m (ca_nft_mint a)) as [->|Hne].
      * unfold supply. rewrite (ce_nft _ _ _ _ _ _ _ _ _ Hc), (rf_fresh_nft _ _ _ _ _ _ _ _ _ _ _ _ _ _ _ _ F). done.
      * rewrite (supply_other w w'); [lia|]. intros mt. destruct F. destruct rf_coll_md_kind as (? & ? & ? & ? & ? & ? & -> & ->). split.
        -- rewrite (ds_dat _ _ _ rf_step). unfold create_map. intros Hm.
           do 6 (apply lookup_insert_Some in Hm as [[_ ?]|[_ Hm]]; [done|]).
           apply lookup_insert_Some in Hm as [[? _]|[_ Hm]]; [congruence|].
           do 2 (apply lookup_insert_Some in Hm as [[_ ?]|[_ Hm]]; [done|]). done.
        -- intros Hm. by apply (fr_other _ _ _ _ _ F0).
  - rewrite Z.add_0_r, Z.add_0_r, !total_balance_sum, wdat_set_dat. split.
    + intros _. apply tok_sum_insert_zero; [done|congruence].
    + apply (mint_iff _ _ _ _ _ F0). intros k mt. rewrite wdat_set_dat. intros [[_ ?]|[_ ?]]%lookup_insert_Some; done.
  - rewrite !Z.add_0_r. pose proof F as Fc. destruct Fc. split.
    + intros Hpl. eapply payout_total; [exact cf_pay|done|exact cf_stream|done..].
    + apply (mint_iff _ _ _ _ _ F0). intros k mk Hk. destruct (payout_back _ _ _ _ _ _ _ _ _ _ _ _ _ _ _ _ _ cf_pay Hk eq_refl) as [[_ ?]|?]; done.
  - assert (minted_lockup ix m = 0) as -> by (destruct Hix as [->|[-> _]]; done). rewrite !Z.add_0_r. destruct F. split.
    + intros Hpl. eapply payout_total; [exact wf_pay|done|exact wf_stream|done..].
    + apply (mint_iff _ _ _ _ _ F0). intros k mk Hk. destruct (payout_back _ _ _ _ _ _ _ _ _ _ _ _ _ _ _ _ _ wf_pay Hk eq_refl) as [[_ ?]|?]; done.
  - rewrite !Z.add_0_r. apply move_lamports_ok in Hmv as (Hd & _). unfold total_balance, supply. by rewrite Hd.
Qed.

Theorem C32_merkle : forall E sg ix w w' evs, env_ok E -> signers_ok E sg -> merkle_exec E sg ix w = Ok (w', evs) ->
  lam_total w' = lam_total w /\
  forall m, (plain E m = true -> total_balance w' m = total_balance w m) /\ supply w' m = supply w m.
Proof.
  intros E sg ix w w' evs HE Hsg Hx. destruct (merkle_frame _ _ _ _ _ _ HE Hsg Hx) as (S & F0 & _).
  split; [exact (fr_total _ _ _ _ _ F0)|]. intros m. apply merkle_exec_effect in Hx as [_ Heff].
  destruct Heff as [i t1 f p c1 b ? Hi Ht Hn Hne Hd Hr|a g mt b c1 ? ? Hi Hm Hmp Hf Hn1 Hn2 Hne Hv Hc Hsz Hd ->|a i am pf tr mt c1 vt dt fee ? ? F
    |a am mt c1 vt dt ? ? F|a tr n ? Hc Htr Hcc Hca -> Hnpos Hmv].
  - split.
    + intros Hpl. rewrite !total_balance_sum, (ds_dat _ _ _ Hd). apply tok_sum_insert_zero; [done|congruence].
    + apply (mint_iff _ _ _ _ _ F0). intros k mt. rewrite (ds_dat _ _ _ Hd). intros [[_ ?]|[_ ?]]%lookup_insert_Some; done.
  - split.
    + intros Hpl. rewrite !total_balance_sum, (ds_dat _ _ _ Hd). rewrite tok_sum_insert_zero; [|done|intros t; rewrite lookup_insert_ne by done; congruence].
      rewrite tok_sum_insert_token by done. simpl. destruct (na_mint a =? m); lia.
    + apply (mint_iff _ _ _ _ _ F0). intros k mk. rewrite (ds_dat _ _ _ Hd). intros [[_ ?]|[_ [[_ ?]|[_ ?]]%lookup_insert_Some]]%lookup_insert_Some; done.
  - pose proof F as Fc. destruct Fc. split.
    + intros Hpl. eapply payout_total; [exact lf_pay|done|exact lf_campaign|done|done| | | |].
      * intros x Hx. by apply claim_D.
      * intros Hx. by rewrite lookup_insert_ne by done.
      * apply tok_sum_insert_zero; [done|congruence].
      * exact Hpl.
    + apply (mint_iff _ _ _ _ _ F0). intros k mk Hk. destruct (payout_back _ _ _ _ _ _ _ _ _ _ _ _ _ _ _ _ _ lf_pay Hk eq_refl) as [[_ ?]|Hk']; [done|].
      by apply lookup_insert_Some in Hk' as [[_ ?]|[_ ?]].
  - pose proof F as Fc. destruct Fc. split.
    + intros Hpl. eapply payout_total; [exact bf_pay|done|exact bf_campaign|done..].
    + apply (mint_iff _ _ _ _ _ F0). intros k mk Hk. destruct (payout_back _ _ _ _ _ _ _ _ _ _ _ _ _ _ _ _ _ bf_pay Hk eq_refl) as [[_ ?]|?]; done.
  - apply move_lamports_ok in Hmv as (Hd & _). unfold total_balance, supply. by rewrite Hd.
Qed.

(** The history of ToyRun: every instruction of both programs, and the totals at its ends. Only the gifts of script5 (others' doing) add tokens. *)
Example C32_example :
  total_balance w4 kToken = total_balance w0 kToken /\ total_balance w7 kToken = total_balance w5 kToken /\
  lam_total w7 = lam_total w0 /\ total_balance w7 (kNft kSender 1) = 1 /\ supply w7 (kNft kSender 1) = 1 /\
  total_balance w7 (kNft kSender 3) = 0.
Proof. split; [vm_compute; reflexivity|]. split; [vm_compute; reflexivity|]. split; [vm_compute; reflexivity|]. split; [vm_compute; reflexivity|]. split; vm_compute; reflexivity. Qed.

Print Assumptions C32_lockup.
Print Assumptions C32_merkle.
