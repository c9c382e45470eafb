(** A concrete environment, world and history: the examples beside the theorems are taken from here. *)
From Verif Require Export Facts Keccak KeysInv.

(** ** A concrete environment *)

(** A stand-in for the address hash: a cheap checksum tagged with the deriving program. *)
Definition tag (p : program) : Z := match p with PLockup => 1 | PMerkle => 2 | PAssocToken => 3 | PMetadata => 4 end.
Fixpoint checksum (a s u : Z) (bs : bytes) : Z :=
  match bs with
  | [] => 16777216 * u + s
  | b :: bs => let a := a + b in let s := s + a in checksum a s (u + s) bs
  end.
Definition poly (bs : bytes) : Z := Z.land (checksum 1 1 1 bs) 281474976710655.
Definition toy_env (fee : Z) : env := {|
  pda_hash p bs := Some (poly bs * 8 + tag p);
  pda_of p k := k mod 8 =? tag p;
  keccak := keccak256;
  rent_min n := Z.max 0 ((n + 128) * 6960);
  tprog_id tp := match tp with SplToken => 6000 | Token2022 => 6008 end;
  metadata_program_id := 6016;
  md_fee := 10000000;
  md_accepts tp := tprog_eqb tp SplToken;
  withdrawal_fee_usd := fee; claim_fee_usd := fee;
  (* keys of the form 8 n + 5 are mints with a transfer fee of 1 % *)
  plain k := negb (k mod 8 =? 5);
  ext_transfer m from to t n := Some (n / 100);
  ext_space m := 12;
  (* keys of the form 8 n + 6 are token accounts with a required memo *)
  guarded m from to t := to mod 8 =? 6 |}.
Definition E0 : env := toy_env 0.
(** The same with a fee of one dollar. *)
Definition E1 : env := toy_env 100000000.

Lemma poly_bound bs : 0 <= poly bs < 2 ^ 48.
Proof.
  unfold poly. change 281474976710655 with (Z.ones 48). rewrite Z.land_ones by done. by apply Z.mod_pos_bound.
Qed.
Lemma toy_env_ok fee : 0 <= fee -> env_ok (toy_env fee).
Proof.
  intros Hf. split; simpl.
  - intros p bs k [= <-]. pose proof (poly_bound bs). split.
    + apply Z.eqb_eq. rewrite Z.add_comm, Z.mod_add by done. by destruct p.
    + unfold key_ok, KEY_BOUND. destruct p; simpl tag; lia.
  - intros p q k Hp%Z.eqb_eq Hq%Z.eqb_eq. destruct p, q; simpl in *; congruence.
  - intros n. lia.
  - lia.
  - done.
  - intros m from to t n f Hn [= <-]. split; [apply Z.div_pos; lia|]. apply Z.div_le_upper_bound; lia.
  - intros k Hk%Z.eqb_eq. by rewrite Hk.
Qed.
Lemma E0_ok : env_ok E0. Proof. by apply toy_env_ok. Qed.
Lemma E1_ok : env_ok E1. Proof. by apply toy_env_ok. Qed.
Lemma E0_deployed : deployed_fees E0. Proof. done. Qed.

(** ** Finite checks on concrete worlds *)
Definition all_dat (f : key -> adata -> bool) (w : world) : bool :=
  forallb (fun x => f x.1 x.2) (map_to_list (wdat w)).
Lemma all_dat_ok f w k d : all_dat f w = true -> wdat w !! k = Some d -> f k d = true.
Proof.
  intros H Hk. apply elem_of_map_to_list in Hk. unfold all_dat in H.
  rewrite forallb_forall in H. apply (H (k, d)). by apply elem_of_list_In.
Qed.
Lemma total_balance_zero w m : all_dat (fun _ d => match d with DToken t => negb (t_mint t =? m) | _ => true end) w = true ->
  total_balance w m = 0.
Proof.
  intros H. unfold total_balance.
  assert (forall D : gmap key adata, (forall k d, D !! k = Some d -> balance_of m d = 0) ->
    map_fold (fun _ d acc => balance_of m d + acc) 0 D = 0) as Hz.
  { intros D. apply (map_fold_ind (fun z D => (forall k d, D !! k = Some d -> balance_of m d = 0) -> z = 0)); [done|].
    intros i x D' r Hi IH HD. rewrite (HD i x) by apply lookup_insert. rewrite IH; [lia|].
    intros k d Hk. apply (HD k d). rewrite lookup_insert_ne; [done|]. intros ->. congruence. }
  apply Hz. intros k d Hk. pose proof (all_dat_ok _ _ _ _ H Hk) as Hd. destruct d; try done.
  simpl in *. destruct (t_mint t =? m); done.
Qed.

(** ** A genesis world *)
Definition ata (o m : key) (tp : tprog) : key := match ata_address E0 o m tp with Ok k => k | Err _ => 0 end.
Definition pda (p : program) (seeds : list bytes) : key :=
  match find_program_address E0 p seeds with Ok (k, _) => k | Err _ => 0 end.

Definition kSender : key := 1000.
Definition kRecipient : key := 2000.
Definition kOther : key := 3000.
Definition kCollector : key := 4000.
Definition kToken : key := 5000.
Definition kOracle : key := 7000.
Definition kFeed : key := 7008.
(** A SOL price of 200 dollars with 8 decimals, reported at time 900. *)
Definition feed0 : adata := DFeed kOracle (Answers (Round 20000000000 900)) (Answers 8).

Definition w0 : world := {|
  wlam := list_to_map [(kSender, 10000000000); (kRecipient, 10000000000); (kOther, 10000000000)];
  wdat := list_to_map [(kToken, DMint (Mint SplToken 100000 6 None None));
                       (ata kSender kToken SplToken, DToken (TokAcc SplToken kToken kSender 100000 false));
                       (kFeed, feed0)];
  wclock := 1000 |}.

Definition tok_check (E : env) (k : key) (d : adata) : bool :=
  match d with
  | DToken t => (0 <=? t_amount t) && (t_amount t <=? U64_MAX) && negb (pda_of E PLockup (t_mint t)) && is_key (t_mint t) && is_key (t_owner t) &&
      (negb (pda_of E PAssocToken k) || match ata_address E (t_owner t) (t_mint t) (t_prog t) with Ok k' => k' =? k | Err _ => false end)
  | DMint m => (0 <=? m_supply m)
  | _ => true
  end.
Lemma token_sane_check E w : all_dat (tok_check E) w = true -> token_sane E w.
Proof.
  intros H. split.
  - intros k t Hk. pose proof (all_dat_ok _ _ _ _ H Hk) as Hd. simpl in Hd.
    apply andb_prop in Hd as [[[[[?%Z.leb_le ?%Z.leb_le]%andb_prop ?]%andb_prop ?]%andb_prop ?]%andb_prop ?]. done.
  - intros m Hm. rewrite total_balance_zero.
    + unfold supply. destruct (wdat w !! m) as [[]|] eqn:Hk; try done.
      pose proof (all_dat_ok _ _ _ _ H Hk) as Hd. simpl in Hd. by apply Z.leb_le in Hd.
    + unfold all_dat in *. apply forallb_forall. intros [k d] Hin.
      rewrite forallb_forall in H. specialize (H _ Hin). simpl in *. destruct d; try done.
      apply andb_prop in H as [[[[[??]%andb_prop Hp]%andb_prop ?]%andb_prop ?]%andb_prop ?].
      destruct (t_mint t =? m) eqn:Heq; [|done]. apply Z.eqb_eq in Heq. subst.
      rewrite Hm in Hp. done.
Qed.
Lemma ata_check E w k t : all_dat (tok_check E) w = true -> wdat w !! k = Some (DToken t) -> pda_of E PAssocToken k = true ->
  ata_address E (t_owner t) (t_mint t) (t_prog t) = Ok k.
Proof.
  intros H Hk Hp. pose proof (all_dat_ok _ _ _ _ H Hk) as Hd. simpl in Hd.
  apply andb_prop in Hd as [_ Hd]. rewrite Hp in Hd. simpl in Hd.
  destruct (ata_address E (t_owner t) (t_mint t) (t_prog t)) as [k'|]; [|discriminate]. apply Z.eqb_eq in Hd. by subst.
Qed.
Lemma keys_sane_check E w : all_dat (tok_check E) w = true -> keys_sane w.
Proof.
  intros H k t Hk. pose proof (all_dat_ok _ _ _ _ H Hk) as Hd. simpl in Hd.
  apply andb_prop in Hd as [[[_ ?%is_key_ok]%andb_prop ?%is_key_ok]%andb_prop _]. done.
Qed.
Definition genesis_check (E : env) (k : key) (d : adata) : bool :=
  match owner_prog d with Some _ => false | None => true end
  && negb (pda_of E PLockup k) && negb (pda_of E PMerkle k).
Lemma genesis_from_check E w : all_dat (genesis_check E) w = true -> all_dat (tok_check E) w = true -> genesis E w.
Proof.
  intros H Ht. split.
  - intros k d Hk. pose proof (all_dat_ok _ _ _ _ H Hk) as Hd. unfold genesis_check in Hd.
    destruct (owner_prog d); done.
  - intros k Hp. destruct (wdat w !! k) as [d|] eqn:Hk; [|done].
    pose proof (all_dat_ok _ _ _ _ H Hk) as Hd. unfold genesis_check in Hd.
    apply andb_prop in Hd as [[? Ha]%andb_prop Hb].
    destruct Hp as [Hp|Hp]; rewrite Hp in *; done.
  - by apply token_sane_check.
  - intros k t Hk Hp. exact (ata_check _ _ _ _ Ht Hk Hp).
  - by apply (keys_sane_check E).
Qed.
Lemma w0_genesis : genesis E0 w0.
Proof. apply genesis_from_check; vm_compute; reflexivity. Qed.
Lemma w0_genesis1 : genesis E1 w0.
Proof. apply genesis_from_check; vm_compute; reflexivity. Qed.

(** ** Running *)
Definition out {B} (r : res (world * B)) (w : world) : world := match r with Ok (w', _) => w' | Err _ => w end.
Definition evs_of (r : res (world * list event)) : list event := match r with Ok (_, e) => e | Err _ => [] end.
Definition L (E : env) (sg : list key) (ix : lockup_ix) (w : world) : world := out (lockup_exec E sg ix w) w.
Definition M (E : env) (sg : list key) (ix : merkle_ix) (w : world) : world := out (merkle_exec E sg ix w) w.
(** The clock moves to [t]. *)
Definition T (t : Z) (w : world) : world := World (wlam w) (wdat w) t.
(** Somebody gives [n] of an existing token account's token. *)
Definition give (k : key) (n : Z) (w : world) : world :=
  match wdat w !! k with Some (DToken t) => set_dat k (DToken (with_amount t (t_amount t + n))) w | _ => w end.

Lemma L_ok E sg ix w : is_ok (lockup_exec E sg ix w) = true ->
  lockup_exec E sg ix w = Ok (L E sg ix w, evs_of (lockup_exec E sg ix w)).
Proof. unfold L. destruct (lockup_exec E sg ix w) as [[]|]; done. Qed.
Lemma M_ok E sg ix w : is_ok (merkle_exec E sg ix w) = true ->
  merkle_exec E sg ix w = Ok (M E sg ix w, evs_of (merkle_exec E sg ix w)).
Proof. unfold M. destruct (merkle_exec E sg ix w) as [[]|]; done. Qed.

Definition signers_check (E : env) (sg : list key) : bool :=
  forallb (fun k => negb (pda_of E PLockup k) && negb (pda_of E PMerkle k)) sg.
Lemma signers_from_check E sg : signers_check E sg = true -> signers_ok E sg.
Proof.
  intros H k Hk. unfold signers_check in H. rewrite forallb_forall in H.
  apply elem_of_list_In in Hk. apply H in Hk. apply andb_prop in Hk as [H1 H2].
  by destruct (pda_of E PLockup k), (pda_of E PMerkle k).
Qed.

Lemma untouched_refl_dat E p w w' : wdat w' = wdat w -> wlam w' = wlam w -> untouched E p w w'.
Proof.
  intros Hd Hl. split; unfold lam; rewrite ?Hd, ?Hl; try done.
  - intros k t Hk _ _. exists t. split_and!; done.
Qed.
Lemma others_T E t w : token_sane E w -> keys_sane w -> others_step E w (T t w).
Proof.
  intros [H1 H2] Hks. split.
  - by apply untouched_refl_dat.
  - by apply untouched_refl_dat.
  - intros k m a Hk Ha Hp _. exists m. split_and!; [done..|lia].
  - split; [exact H1|exact H2].
  - intros k x Hk _. left. exists x. split; [exact Hk|done].
  - exact Hks.
Qed.
(** Somebody gives away freshly minted tokens: always possible for an ordinary token. *)
Lemma others_give E k n w t : token_sane E w -> keys_sane w -> wdat w !! k = Some (DToken t) -> 0 <= n -> t_amount t + n <= U64_MAX ->
  pda_of E PLockup (t_mint t) = false -> others_step E w (give k n w).
Proof.
  intros Hs Hks Hk Hn Hu Hp. unfold give. rewrite Hk.
  assert (forall p, untouched E p w (set_dat k (DToken (with_amount t (t_amount t + n))) w)) as Hunt.
  { intros p. split; unfold set_dat; simpl; unfold lam; simpl.
    - intros i d Hi Hd. rewrite lookup_insert_ne; [done|]. intros <-. rewrite Hk in Hi. by injection Hi as <-.
    - intros i d Hi Hd. destruct (decide (k = i)) as [<-|Hne].
      + rewrite lookup_insert in Hi. by injection Hi as <-.
      + by rewrite lookup_insert_ne in Hi.
    - intros i _ Hi. rewrite lookup_insert_ne; [done|]. intros <-. congruence.
    - intros i ti Hi _ _. destruct (decide (k = i)) as [<-|Hne].
      + rewrite lookup_insert. rewrite Hk in Hi. injection Hi as <-. eexists. split; [done|]. simpl. split_and!; [done..|lia].
      + rewrite lookup_insert_ne by done. exists ti. split_and!; try done. }
  destruct Hs as [H1 H2]. split; [apply Hunt|apply Hunt| | | |].
  - intros i m a Hi Ha Hpa _. exists m. simpl. rewrite lookup_insert_ne.
    + split_and!; [done..|lia].
    + intros <-. congruence.
  - split; simpl.
    + intros i ti Hi. destruct (decide (k = i)) as [<-|Hne].
      * rewrite lookup_insert in Hi. injection Hi as <-. specialize (H1 _ _ Hk). simpl. lia.
      * rewrite lookup_insert_ne in Hi by done. exact (H1 _ _ Hi).
    + intros m Hm. specialize (H2 m Hm). rewrite total_balance_sum in *. simpl.
      rewrite (tok_sum_insert_same _ _ _ t) by done.
      destruct (t_mint t =? m) eqn:Heq; [apply Z.eqb_eq in Heq; subst; congruence|].
      assert (supply (set_dat k (DToken (with_amount t (t_amount t + n))) w) m = supply w m) as ->; [|lia].
      unfold supply, set_dat. simpl. destruct (decide (k = m)) as [<-|Hne].
      * rewrite lookup_insert, Hk. done.
      * by rewrite lookup_insert_ne.
  - intros i ti. simpl. intros [[<- [= <-]]|[_ Hi]]%lookup_insert_Some _; left; [exists t; split; [exact Hk|done]|exists ti; split; [exact Hi|done]].
  - intros i ti. simpl. intros [[_ [= <-]]|[_ Hi]]%lookup_insert_Some; [exact (Hks _ _ Hk)|exact (Hks _ _ Hi)].
Qed.

(** ** A scripted history *)
Inductive cmd := CL (sg : list key) (ix : lockup_ix) | CM (sg : list key) (ix : merkle_ix) | CT (t : Z) | CGive (k : key) (n : Z).
Definition do (E : env) (c : cmd) (w : world) : world :=
  match c with CL sg ix => L E sg ix w | CM sg ix => M E sg ix w | CT t => T t w | CGive k n => give k n w end.
Definition entry (E : env) (c : cmd) (w : world) : action * list event :=
  match c with
  | CL sg ix => (ALockup sg ix, evs_of (lockup_exec E sg ix w))
  | CM sg ix => (AMerkle sg ix, evs_of (merkle_exec E sg ix w))
  | _ => (AOthers, [])
  end.
Definition cmd_ok (E : env) (c : cmd) (w : world) : bool :=
  match c with
  | CL sg ix => is_ok (lockup_exec E sg ix w) && signers_check E sg
  | CM sg ix => is_ok (merkle_exec E sg ix w) && signers_check E sg
  | CT t => (0 <=? wclock w) && (wclock w <=? t) && (t <=? U64_MAX)
  | CGive k n =>
      (0 <=? wclock w) && (wclock w <=? U64_MAX) &&
      match wdat w !! k with
      | Some (DToken t) => (0 <=? n) && (t_amount t + n <=? U64_MAX) && negb (pda_of E PLockup (t_mint t))
      | _ => false end
  end.
Lemma do_step E c w : env_ok E -> token_sane E w -> keys_sane w -> cmd_ok E c w = true ->
  step E forward_clock w (entry E c w).1 (entry E c w).2 (do E c w).
Proof.
  intros HE Hs Hks Hc. destruct c as [sg ix|sg ix|t|k n]; simpl in *.
  - apply andb_prop in Hc as [H1 H2]. constructor; [by apply signers_from_check|]. by apply L_ok.
  - apply andb_prop in Hc as [H1 H2]. constructor; [by apply signers_from_check|]. by apply M_ok.
  - apply andb_prop in Hc as [[?%Z.leb_le ?%Z.leb_le]%andb_prop ?%Z.leb_le]. constructor; [by apply others_T|].
    unfold forward_clock. simpl. lia.
  - apply andb_prop in Hc as [[?%Z.leb_le ?%Z.leb_le]%andb_prop Hc].
    destruct (wdat w !! k) as [[]|] eqn:Hk; try done.
    apply andb_prop in Hc as [[?%Z.leb_le ?%Z.leb_le]%andb_prop Hp].
    constructor.
    + eapply others_give; [done|done|exact Hk|done|done|]. by destruct (pda_of E PLockup (t_mint t)).
    + unfold give. rewrite Hk. simpl. unfold forward_clock. lia.
Qed.

(** A script from [w]: final world, trace, and whether every command succeeded. *)
Fixpoint script (E : env) (cs : list cmd) (w : world) : world :=
  match cs with [] => w | c :: cs' => script E cs' (do E c w) end.
Fixpoint script_trace (E : env) (cs : list cmd) (w : world) : trace :=
  match cs with [] => [] | c :: cs' => entry E c w :: script_trace E cs' (do E c w) end.
Fixpoint script_ok (E : env) (cs : list cmd) (w : world) : bool :=
  match cs with [] => true | c :: cs' => cmd_ok E c w && script_ok E cs' (do E c w) end.

Lemma script_run E cs w : env_ok E -> token_sane E w -> keys_sane w -> script_ok E cs w = true ->
  run E forward_clock w (script_trace E cs w) (script E cs w).
Proof.
  intros HE. revert w. induction cs as [|c cs IH]; intros w Hs Hks Hok; simpl in *; [constructor|].
  apply andb_prop in Hok as [H1 H2].
  pose proof (do_step E c w HE Hs Hks H1) as Hst.
  destruct (entry E c w) as [a evs] eqn:He. simpl in Hst.
  eapply run_cons; [exact Hst|]. apply IH; [|exact (step_keys _ _ _ _ _ _ HE Hst Hks)|done].
  exact (sk_token _ _ _ _ (step_keeps _ _ _ _ _ _ HE Hs Hst)).
Qed.

(** The same in one pass: each command is executed once, and the trace and the world are read off its result. *)
Definition do_once (E : env) (c : cmd) (w : world) : option (action * list event * world) :=
  match c with
  | CL sg ix => match lockup_exec E sg ix w with
                | Ok (w', evs) => if signers_check E sg then Some (ALockup sg ix, evs, w') else None
                | Err _ => None end
  | CM sg ix => match merkle_exec E sg ix w with
                | Ok (w', evs) => if signers_check E sg then Some (AMerkle sg ix, evs, w') else None
                | Err _ => None end
  | _ => if cmd_ok E c w then Some (AOthers, [], do E c w) else None
  end.
Fixpoint script_once (E : env) (cs : list cmd) (w : world) : option (trace * world) :=
  match cs with
  | [] => Some ([], w)
  | c :: cs' =>
      match do_once E c w with
      | Some (e, w') => match script_once E cs' w' with Some (tr, w'') => Some (e :: tr, w'') | None => None end
      | None => None
      end
  end.
Lemma do_once_ok E c w e w' : do_once E c w = Some (e, w') -> cmd_ok E c w = true /\ entry E c w = e /\ do E c w = w'.
Proof.
  destruct c as [sg ix|sg ix|t|k n]; unfold do_once, cmd_ok, entry, do, L, M.
  - destruct (lockup_exec E sg ix w) as [[]|]; [|done]. destruct (signers_check E sg); [|done]. by intros [= <- <-].
  - destruct (merkle_exec E sg ix w) as [[]|]; [|done]. destruct (signers_check E sg); [|done]. by intros [= <- <-].
  - destruct (_ && _); [|done]. by intros [= <- <-].
  - destruct (_ && _); [|done]. by intros [= <- <-].
Qed.
Lemma script_once_ok E cs w tr w' : script_once E cs w = Some (tr, w') ->
  script_ok E cs w = true /\ script_trace E cs w = tr /\ script E cs w = w'.
Proof.
  revert w tr. induction cs as [|c cs IH]; intros w tr; simpl; [by intros [= <- <-]|].
  destruct (do_once E c w) as [[e w1]|] eqn:H1; [|done]. apply do_once_ok in H1 as (-> & -> & ->).
  destruct (script_once E cs w1) as [[tr1 w2]|] eqn:H2; [|done]. intros [= <- <-].
  apply IH in H2 as (-> & -> & ->). done.
Qed.

(** Worlds written out. *)
Definition lam_of (w : world) : list (key * Z) := map_to_list (wlam w).
Definition dat_of (w : world) : list (key * adata) := map_to_list (wdat w).
Definition lit (l : list (key * Z)) (d : list (key * adata)) (c : Z) : world := World (list_to_map l) (list_to_map d) c.
Lemma world_lists w w' : lam_of w = lam_of w' -> dat_of w = dat_of w' -> wclock w = wclock w' -> w = w'.
Proof.
  destruct w as [l d c], w' as [l' d' c']. unfold lam_of, dat_of. simpl. intros Hl Hd ->. f_equal.
  - apply map_to_list_inj. by rewrite Hl.
  - apply map_to_list_inj. by rewrite Hd.
Qed.
(** What a stage of a script leads to, as data: the trace, and the world as lists. *)
Definition stage_data (x : option (trace * world)) : option (trace * (list (key * Z) * (list (key * adata) * Z))) :=
  match x with Some (tr, w) => Some (tr, (lam_of w, (dat_of w, wclock w))) | None => None end.
Definition stage (E : env) (cs : list cmd) (w : world) (tr : trace) (w' : world) : Prop :=
  script_ok E cs w = true /\ script_trace E cs w = tr /\ script E cs w = w'.
Lemma stage_intro E cs w tr w' : stage_data (script_once E cs w) = stage_data (Some (tr, w')) -> stage E cs w tr w'.
Proof.
  destruct (script_once E cs w) as [[tr0 w1]|] eqn:H; [|done]. simpl. intros [= <- Hl Hd Hc].
  apply script_once_ok in H as (H1 & H2 & H3). split_and!; [done..|]. rewrite H3. by apply world_lists.
Qed.
