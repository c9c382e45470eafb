(** Exact effects of payouts, and inversion lemmas at the level of whole instructions. *)
From Verif Require Export Facts Seeds.

(** The token balance of an account; 0 if it does not exist. *)
Definition balance (w : world) (k : key) : Z :=
  match wdat w !! k with Some (DToken t) => t_amount t | _ => 0 end.

Record paid_exactly (E : env) (w : world) (D : gmap key adata) (own : key) (newd : adata) (vault dest : key)
    (amount : Z) (tp : tprog) (mintk owner auth : key) (w' : world) : Prop := {
  pe_own : wdat w' !! own = Some newd;
  pe_other : forall k, k <> own -> k <> vault -> k <> dest -> wdat w' !! k = D !! k;
  pe_dest : exists td, wdat w' !! dest = Some (DToken td) /\ t_owner td = owner /\ t_mint td = mintk /\ t_prog td = tp;
  pe_vault : exists vt', wdat w' !! vault = Some (DToken vt') /\ t_owner vt' = auth /\ t_mint vt' = mintk /\ t_prog vt' = tp;
  pe_moved : owner <> auth -> vault <> dest /\ balance w' vault = balance w vault - amount /\
    balance w' dest = balance w dest + received E mintk vault dest (wclock w) amount;
  pe_self : owner = auth -> dest = vault /\ balance w' vault = balance w vault;
  pe_enough : amount <= balance w vault }.

Lemma payout_exact E w D own d0 newd vault dest vt dt amount tp mintk owner auth w' :
  payout_facts E w D own newd vault dest vt dt amount tp mintk owner auth w' ->
  wdat w !! vault = Some (DToken vt) -> wdat w !! own = Some d0 -> is_token d0 = false ->
  ata_address E auth mintk tp = Ok vault ->
  (forall k, wdat w !! k <> None -> D !! k = wdat w !! k) ->
  paid_exactly E w D own newd vault dest amount tp mintk owner auth w'.
Proof.
  intros F Hv Ho Hd0 Hva HD. destruct F as [Fd Fo Fm Fp Fa Fvo Fvm Fvp Fam Froom [Fdat _ _ _]].
  assert (own <> vault) as Hov by (intros ->; rewrite Hv in Ho; by injection Ho as <-).
  assert (own <> dest) as Hod.
  { intros ->. destruct Fd as [Fd|[Fd _]]; rewrite Ho in Fd; [|done]. by injection Fd as ->. }
  assert (Hbd : balance w dest = t_amount dt).
  { unfold balance. destruct Fd as [Fd|[Fd ->]]; rewrite Fd; done. }
  assert (Hself : owner = auth -> dest = vault) by (intros ->; congruence).
  assert (Hne : owner <> auth -> vault <> dest).
  { intros Hne <-. destruct Fd as [Fd|[Fd _]]; rewrite Hv in Fd; [|done]. injection Fd as ->. congruence. }
  split.
  - rewrite Fdat. by apply payout_lookup_own.
  - intros k H1 H2 H3. rewrite Fdat. by apply payout_lookup_other.
  - rewrite Fdat. destruct (decide (vault = dest)) as [<-|Hvd].
    + rewrite payout_lookup_same by done. rewrite HD by congruence. exists vt. split; [done|].
      destruct Fd as [Fd|[Fd _]]; rewrite Hv in Fd; [|done]. injection Fd as ->. done.
    + rewrite payout_lookup_dest by done. eexists. split; [done|]. done.
  - rewrite Fdat. destruct (decide (vault = dest)) as [<-|Hvd].
    + rewrite payout_lookup_same by done. rewrite HD by congruence. exists vt. done.
    + rewrite payout_lookup_vault by done. eexists. split; [done|]. done.
  - intros Hoa. specialize (Hne Hoa). split; [done|].
    unfold balance at 1. rewrite Fdat, payout_lookup_vault by done. simpl.
    split; [unfold balance; by rewrite Hv|].
    unfold balance at 1. rewrite Fdat, payout_lookup_dest by done. simpl. lia.
  - intros Hoa. specialize (Hself Hoa). split; [done|]. subst dest.
    unfold balance. rewrite Fdat, payout_lookup_same by done. by rewrite HD by congruence.
  - unfold balance. by rewrite Hv.
Qed.

Lemma pe_moved_plain E w D own newd vault dest amount tp mintk owner auth w' :
  plain E mintk = true -> paid_exactly E w D own newd vault dest amount tp mintk owner auth w' ->
  owner <> auth -> vault <> dest /\ balance w' vault = balance w vault - amount /\
    balance w' dest = balance w dest + amount.
Proof. intros Hp F Hn. destruct (pe_moved _ _ _ _ _ _ _ _ _ _ _ _ _ F Hn) as (?&?&Hd). by rewrite received_plain in Hd. Qed.

(** ** Whole instructions *)
Lemma exec_withdraw_inv E sg a amount w w' evs : lockup_exec E sg (LWithdraw a amount) w = Ok (w', evs) ->
  0 < amount /\ withdraw_accs_ok a = true /\
  exists tr m nt s s' vt dt fee wd, withdraw_facts E sg a amount w w' evs tr m nt s s' vt dt fee wd.
Proof.
  intros Hx. apply lockup_exec_effect in Hx as [Hok Heff]. simpl in Hok. apply andb_prop in Hok as [Hok _].
  inversion Heff as [| ? ? ? ? ? ? ? ? ? ? ? ? ? ? Hix | | | ? ? ? tr m nt s s' vt dt fee wd ? ? Hix Ham F |]; subst.
  - destruct Hix as [?|(q & ? & _)]; done.
  - destruct Hix as [[= <- <-]|[? _]]; [|done]. split_and!; [done|done|]. by exists tr, m, nt, s, s', vt, dt, fee, wd.
Qed.
Lemma exec_withdraw_max_inv E sg a w w' evs : lockup_exec E sg (LWithdrawMax a) w = Ok (w', evs) ->
  withdraw_accs_ok a = true /\
  exists tr m nt s s' vt dt fee wd, 0 < wd /\ withdraw_facts E sg a wd w w' evs tr m nt s s' vt dt fee wd.
Proof.
  intros Hx. apply lockup_exec_effect in Hx as [Hok Heff]. simpl in Hok.
  inversion Heff as [| ? ? ? ? ? ? ? ? ? ? ? ? ? ? Hix | | | ? ? ? tr m nt s s' vt dt fee wd ? ? Hix Ham F |]; subst.
  - destruct Hix as [?|(q & ? & _)]; done.
  - destruct Hix as [?|[[= <-] ->]]; [done|]. split; [done|]. exists tr, m, nt, s, s', vt, dt, fee, wd. done.
Qed.
Lemma exec_cancel_inv E sg a w w' evs : lockup_exec E sg (LCancel a) w = Ok (w', evs) ->
  exists m s vt dt streamed, cancel_facts E sg a w w' evs m s vt dt streamed.
Proof.
  intros Hx. apply lockup_exec_effect in Hx as [Hok Heff].
  inversion Heff as [| ? ? ? ? ? ? ? ? ? ? ? ? ? ? Hix | | ? m s vt dt st ? ? F | ? ? ? tr m nt s s' vt dt fee wd ? ? Hix Ham F |]; subst.
  - destruct Hix as [?|(q & ? & _)]; done.
  - by exists m, s, vt, dt, st.
  - destruct Hix as [?|[? _]]; done.
Qed.
Lemma exec_renounce_inv E sg a w w' evs : lockup_exec E sg (LRenounce a) w = Ok (w', evs) ->
  exists s streamed, ra_sender a ∈ sg /\ ra_sender a = s_sender s /\ wdat w !! ra_stream a = Some (DStream s) /\
    (exists nm, wdat w !! ra_nft_mint a = Some (DMint nm)) /\
    create_program_address E PLockup (stream_seeds (ra_nft_mint a)) (s_bump s) = Some (ra_stream a) /\
    get_streamed_amount (get_current_time w) (s_times s) (s_amounts s) (s_depleted s) (s_canceled s) = Ok streamed /\
    s_cancelable s = true /\ streamed < deposited (s_amounts s) /\
    w' = set_dat (ra_stream a) (DStream (stream_renounce s)) w /\
    evs = [EvRenounce (s_mint s) (ra_stream a) (ra_nft_mint a)].
Proof.
  unfold lockup_exec. destruct (lockup_ix_ok _); [|done]. cbn [ensure rbind]. apply renounce_inv.
Qed.
Lemma exec_create_inv E sg a p w w' evs : lockup_exec E sg (LCreateTs a p) w = Ok (w', evs) ->
  create_args_ok p /\ create_accs_ok a = true /\
  exists ct nc cm dm sb s name c0 c1, create_facts E sg a p w w' evs ct nc cm dm sb s name c0 c1.
Proof.
  intros Hx. apply lockup_exec_effect in Hx as [Hok Heff]. simpl in Hok.
  apply andb_prop in Hok as [[Hok _]%andb_prop _].
  inversion Heff as [| ? a' p' ct nc cm dm sb s name c0 c1 ? ? Hix Hargs F | | |? ? ? ? ? ? ? ? ? ? ? ? ? ? Hix |]; subst.
  - destruct Hix as [[= <- <-]|(q & ? & _)]; [|done]. split_and!; [done|done|]. by exists ct, nc, cm, dm, sb, s, name, c0, c1.
  - destruct Hix as [?|[? _]]; done.
Qed.
Lemma exec_claim_inv E sg a i am pf w w' evs : merkle_exec E sg (MClaim a i am pf) w = Ok (w', evs) ->
  merkle_ix_ok (MClaim a i am pf) = true /\
  exists tr m c vt dt fee, claim_facts E sg a i am pf w w' evs tr m c vt dt fee.
Proof.
  intros Hx. apply merkle_exec_effect in Hx as [Hok Heff]. split; [done|].
  inversion Heff as [| |? ? ? ? tr m c vt dt fee ? ? F| |]; subst. by exists tr, m, c, vt, dt, fee.
Qed.
Lemma exec_clawback_inv E sg a am w w' evs : merkle_exec E sg (MClawback a am) w = Ok (w', evs) ->
  merkle_ix_ok (MClawback a am) = true /\ exists m c vt dt, clawback_facts E sg a am w w' evs m c vt dt.
Proof.
  intros Hx. apply merkle_exec_effect in Hx as [Hok Heff]. split; [done|].
  inversion Heff as [| | |? ? m c vt dt ? ? F|]; subst. by exists m, c, vt, dt.
Qed.

Lemma withdraw_stream_view E sg a amount w w' evs tr m nt s s' vt dt fee wd :
  withdraw_facts E sg a amount w w' evs tr m nt s s' vt dt fee wd ->
  stream_view E (wa_stream a) (wa_nft_mint a) w = Ok s.
Proof.
  intros F. destruct F. unfold stream_view, load_stream, load_mint, check_seeds_bump.
  destruct wf_nft_mint as [nm ->]. rewrite wf_stream. cbn [rbind]. rewrite wf_stream_addr. by rewrite bool_decide_true by done.
Qed.
Lemma cancel_stream_view E sg a w w' evs m s vt dt st :
  cancel_facts E sg a w w' evs m s vt dt st -> stream_view E (xa_stream a) (xa_nft_mint a) w = Ok s.
Proof.
  intros F. destruct F. unfold stream_view, load_stream, load_mint, check_seeds_bump.
  destruct cf_nft_mint as [nm ->]. rewrite cf_stream. cbn [rbind]. rewrite cf_stream_addr. by rewrite bool_decide_true by done.
Qed.
