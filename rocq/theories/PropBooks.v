(** C75: the log accounts for every lamport of the treasuries. *)
From Verif Require Export PropCosts.
From Verif Require Import ToyRun.

(** ** Statement *)

(** What an event says about the lamports of the treasury [k] of a program: a withdrawal pays its fee to Lockup's treasury,
    a claim to Merkle Instant's; a collection moves its amount out of its program's treasury and to its recipient. *)
Definition entered (p : program) (k : key) (e : event) : Z :=
  match e with
  | EvWithdraw _ fee _ _ _ => match p with PLockup => fee | _ => 0 end
  | EvClaim _ _ _ _ fee _ _ => match p with PMerkle => fee | _ => 0 end
  | EvLockupFees n _ recipient => (if recipient =? k then n else 0) - match p with PLockup => n | _ => 0 end
  | EvMerkleFees n _ recipient => (if recipient =? k then n else 0) - match p with PMerkle => n | _ => 0 end
  | _ => 0
  end.
Definition booked (p : program) (k : key) (evs : list event) : Z := fold_right (fun e acc => entered p k e + acc) 0 evs.
(** What others sent to [k] along a run through the worlds [ws]. *)
Fixpoint sent (k : key) (tr : trace) (ws : list world) : Z :=
  match tr, ws with
  | (a, _) :: tr', w :: (w' :: _) as ws' =>
      match a with AOthers => lam w' k - lam w k | _ => 0 end + sent k tr' ws'
  | _, _ => 0
  end.

(** ** Proofs *)
Lemma booked_app p k l1 l2 : booked p k (l1 ++ l2) = booked p k l1 + booked p k l2.
Proof. induction l1 as [|e l1 IH]; cbn [booked fold_right app]; [done|]. fold (booked p k (l1 ++ l2)) (booked p k l1). rewrite IH. lia. Qed.
Lemma booked_one p k e : booked p k [e] = entered p k e.
Proof. cbn [booked fold_right]. lia. Qed.

Lemma net_rents_here E w payer l k : k <> payer -> wdat w !! k <> None -> net (rents E w payer l) k = 0.
Proof.
  intros Hp Hd. induction l as [|[j s] l IH]; [done|].
  change (net (rents E w payer ((j, s) :: l)) k) with
    ((if k =? j then rent_due E w j s else 0) - (if k =? payer then rent_due E w j s else 0) + net (rents E w payer l) k).
  rewrite IH, (proj2 (Z.eqb_neq k payer)) by done. destruct (Z.eqb_spec k j) as [->|]; [|done].
  unfold rent_due. destruct (wdat w !! j); done.
Qed.
Lemma ledger_stays E payer w l m w' k : ledger E payer w l m w' -> k <> payer -> wdat w !! k <> None -> lam w' k = lam w k.
Proof.
  intros L Hp Hd. rewrite (lg_lam _ _ _ _ _ _ L k), net_app, net_rents_here by done. rewrite net_levies_other; [lia|done|].
  intros s Hin. by destruct (lg_md _ _ _ _ _ _ L _ _ Hin) as (_ & ? & _).
Qed.

(** The account that receives the fees of [p]. *)
Definition treasury_is (E : env) (p : program) (k : key) (w : world) : Prop :=
  match p with
  | PLockup => exists t, wdat w !! k = Some (DLockupTreasury t)
  | PMerkle => exists t, wdat w !! k = Some (DMerkleTreasury t)
  | _ => False
  end.
Lemma treasury_pda E p k w : env_ok E -> inv E w -> treasury_is E p k w ->
  (exists b, find_program_address E p [s_TREASURY] = Ok (k, b)) /\ (p = PLockup \/ p = PMerkle) /\ pda_of E p k = true /\ wdat w !! k <> None.
Proof.
  intros HE Hi Ht. destruct p; try done; destruct Ht as [t Ht].
  - pose proof (ti_addr _ _ _ _ _ (li_treasury _ _ (inv_lockup _ _ Hi) _ _ Ht)) as Ha.
    split; [eexists; exact Ha|]. split; [by left|]. split; [exact (proj1 (fpa_pda _ _ _ _ _ HE Ha))|congruence].
  - pose proof (ti_addr _ _ _ _ _ (mi_treasury _ _ (inv_merkle _ _ Hi) _ _ Ht)) as Ha.
    split; [eexists; exact Ha|]. split; [by right|]. split; [exact (proj1 (fpa_pda _ _ _ _ _ HE Ha))|congruence].
Qed.
Lemma same_treasury E p k k' w : env_ok E -> inv E w -> treasury_is E p k w -> treasury_is E p k' w -> k' = k.
Proof.
  intros HE Hi H1 H2. destruct (treasury_pda _ _ _ _ HE Hi H1) as [[b Hb] _]. destruct (treasury_pda _ _ _ _ HE Hi H2) as [[b' Hb'] _].
  rewrite Hb in Hb'. by injection Hb' as ->.
Qed.
Lemma other_treasury E p q k k' w : env_ok E -> inv E w -> treasury_is E p k w -> treasury_is E q k' w -> p <> q -> k' <> k.
Proof.
  intros HE Hi H1 H2 Hpq ->. destruct (treasury_pda _ _ _ _ HE Hi H1) as (_ & _ & A & _). destruct (treasury_pda _ _ _ _ HE Hi H2) as (_ & _ & B & _).
  exact (Hpq (eo_disjoint _ HE _ _ _ A B)).
Qed.

Lemma net_one f t n k : net [(f, t, n)] k = (if k =? t then n else 0) - (if k =? f then n else 0).
Proof. cbn [net fold_right]. lia. Qed.

Lemma lockup_books E sg ix w w' evs p k : env_ok E -> inv E w -> signers_ok E sg -> treasury_is E p k w ->
  lockup_exec E sg ix w = Ok (w', evs) -> lam w' k = lam w k + booked p k evs.
Proof.
  intros HE Hi Hsg Ht Hx. destruct (treasury_pda _ _ _ _ HE Hi Ht) as (_ & Hp & Hpda & Hd).
  assert (k ∉ sg) as Hk.
  { intros Hin. destruct (Hsg k Hin) as [A B]. destruct Hp as [-> | ->]; congruence. }
  pose proof Hx as Hx0. apply lockup_exec_effect in Hx0 as [_ Heff].
  destruct ix as [a f pr c|a pa|a q|a|a|a amount|a|a].
  - inversion Heff as [? ? ? ? ? ? ? F|? ? ? ? ? ? ? ? ? ? ? ? ? ? [?|(? & ? & _)]| | |? ? ? ? ? ? ? ? ? ? ? ? ? ? [?|[? _]]|]; subst; try discriminate.
    unfold lockup_exec in Hx. inv_all Hx. rewrite (ledger_stays _ _ _ _ _ _ k (initialize_ledger _ _ _ _ _ _ _ _ _ HE Hx)); [cbn; lia| |done].
    intros ->. apply Hk. exact (if_signer _ _ _ _ _ _ _ _ _ _ F).
  - inversion Heff as [|? ? ? ? ? ? ? ? ? ? ? ? ? ? Hix ? F| | |? ? ? ? ? ? ? ? ? ? ? ? ? ? [?|[? _]]|]; subst; try discriminate.
    destruct Hix as [Hix|(? & ? & _)]; [|discriminate]. injection Hix as <- <-.
    rewrite (rf_evs _ _ _ _ _ _ _ _ _ _ _ _ _ _ _ _ F). unfold lockup_exec in Hx. inv_all Hx.
    rewrite (ledger_stays _ _ _ _ _ _ k (create_ts_ledger _ _ _ _ _ _ _ HE Hx)); [cbn; lia| |done].
    intros ->. apply Hk. exact (rf_signer _ _ _ _ _ _ _ _ _ _ _ _ _ _ _ _ F).
  - inversion Heff as [|? ? ? ? ? ? ? ? ? ? ? ? ? ? Hix ? F| | |? ? ? ? ? ? ? ? ? ? ? ? ? ? [?|[? _]]|]; subst; try discriminate.
    destruct Hix as [Hix|(? & Hix & _)]; [discriminate|]. injection Hix as <- <-.
    rewrite (rf_evs _ _ _ _ _ _ _ _ _ _ _ _ _ _ _ _ F). unfold lockup_exec in Hx. inv_all Hx.
    rewrite (ledger_stays _ _ _ _ _ _ k (create_dur_ledger _ _ _ _ _ _ _ HE Hx)); [cbn; lia| |done].
    intros ->. apply Hk. exact (rf_signer _ _ _ _ _ _ _ _ _ _ _ _ _ _ _ _ F).
  - inversion Heff as [|? ? ? ? ? ? ? ? ? ? ? ? ? ? [?|(? & ? & _)]|? ? ? ? ? ? ? ? ? ? ? ? -> ->| |? ? ? ? ? ? ? ? ? ? ? ? ? ? [?|[? _]]|]; subst; try discriminate.
    rewrite lam_set_dat. cbn. lia.
  - inversion Heff as [|? ? ? ? ? ? ? ? ? ? ? ? ? ? [?|(? & ? & _)]| |? ? ? ? ? ? ? ? F|? ? ? ? ? ? ? ? ? ? ? ? ? ? [?|[? _]]|]; subst; try discriminate.
    rewrite (cf_evs _ _ _ _ _ _ _ _ _ _ _ F). unfold lockup_exec in Hx. inv_all Hx.
    rewrite (ledger_stays _ _ _ _ _ _ k (cancel_ledger _ _ _ _ _ _ HE Hx)); [cbn; lia| |done].
    intros ->. apply Hk. exact (cf_signer _ _ _ _ _ _ _ _ _ _ _ F).
  - inversion Heff as [|? ? ? ? ? ? ? ? ? ? ? ? ? ? [?|(? & ? & _)]| | |? ? ? ? ? ? ? ? ? ? ? ? ? ? Hix ? F|]; subst; try discriminate.
    destruct Hix as [Hix|[? _]]; [|discriminate]. injection Hix as <- <-. pose proof (wf_signer _ _ _ _ _ _ _ _ _ _ _ _ _ _ _ _ F) as Hsn. clear F Heff.
    destruct (C31_withdraw _ _ _ a _ _ _ HE (or_intror (ex_intro _ amount eq_refl)) Hx) as (tz & fz & amz & Hv & _ & _ & _ & -> & Hl & _).
    apply lockup_treasury_view_inv in Hv as [Hv _].
    rewrite Hl, booked_one. change [(wa_signer a, wa_treasury a, fz); (wa_signer a, wa_dest a, rent_due E w (wa_dest a) (ata_space E (wa_mint a) (wa_tp a)))]
      with ([(wa_signer a, wa_treasury a, fz)] ++ rents E w (wa_signer a) [(wa_dest a, ata_space E (wa_mint a) (wa_tp a))]).
    assert (k <> wa_signer a) as Hks by (intros ->; exact (Hk Hsn)).
    rewrite net_app, (net_rents_here _ _ _ _ _ Hks Hd), net_one, (proj2 (Z.eqb_neq _ _) Hks). cbn [entered].
    destruct Hp as [-> | ->].
    + rewrite (same_treasury _ PLockup k (wa_treasury a) w HE Hi Ht (ex_intro _ tz Hv)), Z.eqb_refl. lia.
    + pose proof (other_treasury _ PMerkle PLockup k (wa_treasury a) w HE Hi Ht (ex_intro _ tz Hv) ltac:(done)) as Hne.
      rewrite (proj2 (Z.eqb_neq k (wa_treasury a))) by congruence. lia.
  - inversion Heff as [|? ? ? ? ? ? ? ? ? ? ? ? ? ? [?|(? & ? & _)]| | |? ? ? ? ? ? ? ? ? ? ? ? ? ? Hix ? F|]; subst; try discriminate.
    destruct Hix as [Hix|[Hix _]]; [discriminate|]. injection Hix as <-. pose proof (wf_signer _ _ _ _ _ _ _ _ _ _ _ _ _ _ _ _ F) as Hsn. clear F Heff.
    destruct (C31_withdraw _ _ _ a _ _ _ HE (or_introl eq_refl) Hx) as (tz & fz & amz & Hv & _ & _ & _ & -> & Hl & _).
    apply lockup_treasury_view_inv in Hv as [Hv _].
    rewrite Hl, booked_one. change [(wa_signer a, wa_treasury a, fz); (wa_signer a, wa_dest a, rent_due E w (wa_dest a) (ata_space E (wa_mint a) (wa_tp a)))]
      with ([(wa_signer a, wa_treasury a, fz)] ++ rents E w (wa_signer a) [(wa_dest a, ata_space E (wa_mint a) (wa_tp a))]).
    assert (k <> wa_signer a) as Hks by (intros ->; exact (Hk Hsn)).
    rewrite net_app, (net_rents_here _ _ _ _ _ Hks Hd), net_one, (proj2 (Z.eqb_neq _ _) Hks). cbn [entered].
    destruct Hp as [-> | ->].
    + rewrite (same_treasury _ PLockup k (wa_treasury a) w HE Hi Ht (ex_intro _ tz Hv)), Z.eqb_refl. lia.
    + pose proof (other_treasury _ PMerkle PLockup k (wa_treasury a) w HE Hi Ht (ex_intro _ tz Hv) ltac:(done)) as Hne.
      rewrite (proj2 (Z.eqb_neq k (wa_treasury a))) by congruence. lia.
  - inversion Heff as [| ? ? ? ? ? ? ? ? ? ? ? ? ? ? [?|(? & ? & _)] | | |? ? ? ? ? ? ? ? ? ? ? ? ? ? [?|[? _]] |? tz n ? ? Hv ? ? Hn ? Hmv]; subst; try discriminate.
    rewrite (fees_net _ _ _ _ _ k Hmv), booked_one, net_one. cbn [entered]. rewrite (Z.eqb_sym (fa_recipient a) k).
    destruct Hp as [-> | ->].
    + rewrite (same_treasury _ PLockup k (fa_treasury a) w HE Hi Ht (ex_intro _ tz Hv)), Z.eqb_refl. lia.
    + pose proof (other_treasury _ PMerkle PLockup k (fa_treasury a) w HE Hi Ht (ex_intro _ tz Hv) ltac:(done)) as Hne.
      rewrite (proj2 (Z.eqb_neq k (fa_treasury a))) by congruence. lia.
Qed.
Lemma merkle_books E sg ix w w' evs p k : env_ok E -> inv E w -> signers_ok E sg -> treasury_is E p k w ->
  merkle_exec E sg ix w = Ok (w', evs) -> lam w' k = lam w k + booked p k evs.
Proof.
  intros HE Hi Hsg Ht Hx. destruct (treasury_pda _ _ _ _ HE Hi Ht) as (_ & Hp & Hpda & Hd).
  assert (k ∉ sg) as Hk.
  { intros Hin. destruct (Hsg k Hin) as [A B]. destruct Hp as [-> | ->]; congruence. }
  pose proof Hx as Hx0. apply merkle_exec_effect in Hx0 as [_ Heff].
  destruct ix as [i t f pr c|a g|a index amount proof|a amount|a].
  - inversion Heff as [? ? ? ? ? ? ? Hs| | | |]; subst. unfold merkle_exec in Hx. inv_all Hx.
    rewrite (ledger_stays _ _ _ _ _ _ k (m_initialize_ledger _ _ _ _ _ _ _ _ _ _ HE Hx)); [cbn; lia| |done]. intros ->. exact (Hk Hs).
  - inversion Heff as [|? ? ? ? ? ? ? Hs ? ? ? ? ? ? ? ? ? ? Hev| | |]; subst. unfold merkle_exec in Hx. inv_all Hx.
    rewrite (ledger_stays _ _ _ _ _ _ k (create_campaign_ledger _ _ _ _ _ _ _ HE Hx)); [cbn; lia| |done]. intros ->. exact (Hk Hs).
  - inversion Heff as [| |? ? ? ? ? ? ? ? ? ? ? ? F| |]; subst. pose proof (lf_signer _ _ _ _ _ _ _ _ _ _ _ _ _ _ _ F) as Hsn. clear F Heff.
    destruct (C31_claim _ _ _ _ _ _ _ _ _ HE Hx) as (tz & fz & Hv & _ & _ & _ & -> & Hl & _).
    apply merkle_treasury_view_inv in Hv as [Hv _].
    rewrite Hl, booked_one.
    change [(la_claimer a, la_treasury a, fz); (la_claimer a, la_recipient_ata a, rent_due E w (la_recipient_ata a) (ata_space E (la_mint a) (la_tp a)));
      (la_claimer a, la_receipt a, rent_due E w (la_receipt a) 8)]
      with ([(la_claimer a, la_treasury a, fz)] ++ rents E w (la_claimer a) [(la_recipient_ata a, ata_space E (la_mint a) (la_tp a)); (la_receipt a, 8)]).
    assert (k <> la_claimer a) as Hks by (intros ->; exact (Hk Hsn)).
    rewrite net_app, (net_rents_here _ _ _ _ _ Hks Hd), net_one, (proj2 (Z.eqb_neq _ _) Hks). cbn [entered].
    destruct Hp as [-> | ->].
    + pose proof (other_treasury _ PLockup PMerkle k (la_treasury a) w HE Hi Ht (ex_intro _ tz Hv) ltac:(done)) as Hne.
      rewrite (proj2 (Z.eqb_neq k (la_treasury a))) by congruence. lia.
    + rewrite (same_treasury _ PMerkle k (la_treasury a) w HE Hi Ht (ex_intro _ tz Hv)), Z.eqb_refl. lia.
  - inversion Heff as [| | |? ? ? ? ? ? ? ? F|]; subst. rewrite (bf_evs _ _ _ _ _ _ _ _ _ _ _ F). unfold merkle_exec in Hx. inv_all Hx.
    rewrite (ledger_stays _ _ _ _ _ _ k (clawback_ledger _ _ _ _ _ _ _ HE Hx)); [cbn; lia| |done].
    intros ->. apply Hk. exact (bf_signer _ _ _ _ _ _ _ _ _ _ _ F).
  - inversion Heff as [| | | |? tz n ? ? Hv ? ? Hn ? Hmv]; subst.
    rewrite (fees_net _ _ _ _ _ k Hmv), booked_one, net_one. cbn [entered]. rewrite (Z.eqb_sym (fa_recipient a) k).
    destruct Hp as [-> | ->].
    + pose proof (other_treasury _ PLockup PMerkle k (fa_treasury a) w HE Hi Ht (ex_intro _ tz Hv) ltac:(done)) as Hne.
      rewrite (proj2 (Z.eqb_neq k (fa_treasury a))) by congruence. lia.
    + rewrite (same_treasury _ PMerkle k (fa_treasury a) w HE Hi Ht (ex_intro _ tz Hv)), Z.eqb_refl. lia.
Qed.

Lemma passed_shape E C w0 tr ws w : passed E C w0 tr ws w -> exists ws0, ws = ws0 ++ [w] /\ length ws0 = length tr.
Proof. intros H. destruct H as [|tr ws w a evs w' H Hs]; [by exists []|]. exists ws. split; [done|].
  assert (length ws = S (length tr)) as ->; [|rewrite app_length; simpl; lia]. clear Hs.
  induction H as [|tr ws w1 a' evs' w'' H IH Hs]; [done|]. rewrite !app_length, IH. simpl. lia. Qed.
Lemma sent_snoc k tr ws w a evs w' : length ws = length tr ->
  sent k (tr ++ [(a, evs)]) ((ws ++ [w]) ++ [w']) = sent k tr (ws ++ [w]) + match a with AOthers => lam w' k - lam w k | _ => 0 end.
Proof.
  revert ws. induction tr as [|[a0 e0] tr IH]; intros ws Hl.
  - destruct ws; [|done]. cbn [app sent]. lia.
  - destruct ws as [|w1 ws]; [done|]. injection Hl as Hl. specialize (IH ws Hl).
    destruct ws as [|w2 ws]; cbn [app sent] in *; lia.
Qed.

Lemma step_treasury_is E C w a evs w' p k : env_ok E -> inv E w -> step E C w a evs w' -> treasury_is E p k w -> treasury_is E p k w'.
Proof.
  intros HE Hi Hs Ht. destruct p; try done; destruct Ht as [t Ht]; exists t.
  - exact (step_lockup_treasury _ _ _ _ _ _ _ _ HE (inv_sane _ _ Hi) Hs Ht).
  - exact (step_merkle_treasury _ _ _ _ _ _ _ _ HE (inv_sane _ _ Hi) Hs Ht).
Qed.
Lemma others_treasury E w w' p k : others_step E w w' -> treasury_is E p k w -> lam w k <= lam w' k.
Proof.
  intros Ho Ht. destruct p; try done; destruct Ht as [t Ht].
  - destruct (u_data _ _ _ _ (os_lockup _ _ _ Ho) _ _ Ht eq_refl) as [_ ?]. lia.
  - destruct (u_data _ _ _ _ (os_merkle _ _ _ Ho) _ _ Ht eq_refl) as [_ ?]. lia.
Qed.
Lemma books E C w0 tr ws w p k : env_ok E -> inv E w0 -> passed E C w0 tr ws w -> treasury_is E p k w0 ->
  treasury_is E p k w /\ lam w k = lam w0 k + booked p k (events tr) + sent k tr ws /\ 0 <= sent k tr ws.
Proof.
  intros HE Hi Hp Ht. induction Hp as [|tr ws w a evs w' Hp IH Hs].
  - split; [exact Ht|]. cbn. lia.
  - destruct IH as (Ht' & IH & Hpos). pose proof (run_inv _ _ _ _ _ HE Hi (passed_run _ _ _ _ _ _ Hp)) as Hi'.
    split; [exact (step_treasury_is _ _ _ _ _ _ _ _ HE Hi' Hs Ht')|].
    destruct (passed_shape _ _ _ _ _ _ Hp) as (ws0 & -> & Hlen). rewrite sent_snoc by done.
    unfold events. rewrite flat_map_app. cbn [flat_map snd app]. rewrite app_nil_r. fold (events tr). rewrite booked_app.
    destruct Hs as [sg ix evs w' Hsg Hx|sg ix evs w' Hsg Hx|w' Ho Hc].
    + rewrite (lockup_books _ _ _ _ _ _ p k HE Hi' Hsg Ht' Hx). lia.
    + rewrite (merkle_books _ _ _ _ _ _ p k HE Hi' Hsg Ht' Hx). lia.
    + pose proof (others_treasury _ _ _ _ _ Ho Ht'). cbn. lia.
Qed.

(** ** C75 *)

(** From any moment on, a treasury holds what it held, plus the fees in the log, minus what the log says was collected, plus
    what others sent to it (and what the log says was collected into it). *)
Theorem C75_lockup_books : forall E C w0 tr ws w k t, env_ok E -> reachable E w0 -> passed E C w0 tr ws w ->
  lockup_treasury_view E k w0 = Ok t ->
  lam w k = lam w0 k + booked PLockup k (events tr) + sent k tr ws /\ 0 <= sent k tr ws.
Proof.
  intros E C w0 tr ws w k t HE Hre Hp Hv. apply lockup_treasury_view_inv in Hv as [Hv _].
  exact (proj2 (books _ _ _ _ _ _ PLockup _ HE (reachable_inv _ _ HE Hre) Hp (ex_intro _ t Hv))).
Qed.
Theorem C75_merkle_books : forall E C w0 tr ws w k t, env_ok E -> reachable E w0 -> passed E C w0 tr ws w ->
  merkle_treasury_view E k w0 = Ok t ->
  lam w k = lam w0 k + booked PMerkle k (events tr) + sent k tr ws /\ 0 <= sent k tr ws.
Proof.
  intros E C w0 tr ws w k t HE Hre Hp Hv. apply merkle_treasury_view_inv in Hv as [Hv _].
  exact (proj2 (books _ _ _ _ _ _ PMerkle _ HE (reachable_inv _ _ HE Hre) Hp (ex_intro _ t Hv))).
Qed.

(** With the fees of this commit the log never shows a fee: all that is ever collected was sent by others, or was there. *)
Definition fee_in (e : event) : Z :=
  match e with EvWithdraw _ fee _ _ _ => fee | EvClaim _ _ _ _ fee _ _ => fee | _ => 0 end.
Theorem C75_deployed : forall E C tr w e, env_ok E -> deployed_fees E -> history E C tr w -> e ∈ events tr -> fee_in e = 0.
Proof.
  intros E C tr w e HE Hdep (w0 & _ & Hr). induction Hr as [|tr w a evs w' Hr IH Hs]; [intros Hin; by apply elem_of_nil in Hin|].
  unfold events. rewrite flat_map_app. cbn [flat_map snd app]. rewrite app_nil_r. fold (events tr). intros [Hin|Hin]%elem_of_app; [exact (IH Hin)|].
  destruct Hs as [sg ix evs w' Hsg Hx|sg ix evs w' Hsg Hx|w' Ho Hc]; [| |by apply elem_of_nil in Hin].
  - pose proof Hx as Hx0. apply lockup_exec_effect in Hx0 as [_ Heff].
    destruct Heff as [| ? ? ? ? ? ? ? ? ? ? ? ? ? ? ? ? F | ? ? ? ? ? ? ? ? ? ? ? ? ? -> |? ? ? ? ? ? ? ? F |ix a am tr0 m nt s1 s' vt dt fee wd w'' evs Hix ? F|].
    + by apply elem_of_nil in Hin.
    + rewrite (rf_evs _ _ _ _ _ _ _ _ _ _ _ _ _ _ _ _ F) in Hin. apply elem_of_list_singleton in Hin as ->. done.
    + apply elem_of_list_singleton in Hin as ->. done.
    + rewrite (cf_evs _ _ _ _ _ _ _ _ _ _ _ F) in Hin. apply elem_of_list_singleton in Hin as ->. done.
    + assert (is_withdraw ix a) as Hw by (destruct Hix as [-> | [-> _]]; [right; by eexists|by left]).
      destruct (C31_withdraw _ _ _ _ _ _ _ HE Hw Hx) as (tz & fz & amz & _ & _ & _ & _ & -> & _ & _ & Hz).
      apply elem_of_list_singleton in Hin as ->. exact (Hz Hdep).
    + apply elem_of_list_singleton in Hin as ->. done.
  - pose proof Hx as Hx0. apply merkle_exec_effect in Hx0 as [_ Heff].
    destruct Heff as [|? ? ? ? ? ? ? ? ? ? ? ? ? ? ? ? ? ? ->|? ? ? ? ? ? ? ? ? ? ? ? F|? ? ? ? ? ? ? ? F|].
    + by apply elem_of_nil in Hin.
    + apply elem_of_list_singleton in Hin as ->. done.
    + destruct (C31_claim _ _ _ _ _ _ _ _ _ HE Hx) as (tz & fz & _ & _ & _ & _ & -> & _ & _ & Hz).
      apply elem_of_list_singleton in Hin as ->. exact (Hz Hdep).
    + rewrite (bf_evs _ _ _ _ _ _ _ _ _ _ _ F) in Hin. apply elem_of_list_singleton in Hin as ->. done.
    + apply elem_of_list_singleton in Hin as ->. done.
Qed.

(** With a fee of one dollar: a withdrawal brings 5,000,000 lamports, the collection takes all of the excess, and the books
    agree; a claim brings as much to the other treasury. *)
Example C75_example :
  reachable E1 v2 /\ (exists ws, passed E1 forward_clock v2 vtr_5 ws v5) /\ is_ok (lockup_treasury_view E1 kTreasury v2) = true /\
  booked PLockup kTreasury (events vtr_5) = 5000000 /\ lam v5 kTreasury = lam v2 kTreasury + 5000000 /\
  (let! (w', evs) := lockup_exec E1 [kCollector] (LCollectFees (collect_to kOther)) v5 in
   Ok (booked PLockup kTreasury evs, lam w' kTreasury - lam v5 kTreasury, booked PMerkle kMTreasury evs)) = Ok (-9000000, -9000000, 0) /\
  (let! (w', evs) := lockup_exec E1 [kCollector] (LCollectFees (collect_to kMTreasury)) v5 in
   Ok (booked PMerkle kMTreasury evs, lam w' kMTreasury - lam v5 kMTreasury)) = Ok (9000000, 9000000) /\
  (let! (w', evs) := merkle_exec E1 [kOther] (MClaim (claim_by kOther 1500 0 0 kRecipient) 0 500 [leafB; leafC]) v5 in
   Ok (booked PMerkle kMTreasury evs, lam w' kMTreasury - lam v5 kMTreasury)) = Ok (5000000, 5000000).
Proof.
  split; [exact (history_reach _ _ _ v2_hist)|]. split.
  { apply run_passed. destruct v5_stage as (Hok & <- & <-). apply script_run; [apply E1_ok|exact (inv_sane _ _ (history_inv _ _ _ _ E1_ok v2_hist))|
      exact (reachable_keys E1 v2 E1_ok (history_reach _ _ _ v2_hist))|exact Hok]. }
  split_and!; vm_compute; reflexivity.
Qed.

Print Assumptions C75_lockup_books.
Print Assumptions C75_merkle_books.
Print Assumptions C75_deployed.
