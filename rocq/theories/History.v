(** Histories: the two programs run by arbitrary signers, interleaved with everything other programs and
    users can do to the same accounts. *)
From Verif Require Export Merkle.

(** ** What is assumed about the environment parameters *)
Record env_ok (E : env) : Prop := {
  (* a derived address is recognisable as derived by that program, and is a 32-byte key *)
  eo_pda : forall p bs k, pda_hash E p bs = Some k -> pda_of E p k = true /\ key_ok k;
  (* an address is derived by at most one program *)
  eo_disjoint : forall p q k, pda_of E p k = true -> pda_of E q k = true -> p = q;
  eo_rent : forall n, 0 <= rent_min E n;
  eo_md_fee : 0 <= md_fee E;
  eo_fees : 0 <= withdrawal_fee_usd E /\ 0 <= claim_fee_usd E;
  (* a transfer fee is part of the amount *)
  eo_withheld : forall m from to t n f, 0 <= n -> ext_transfer E m from to t n = Some f -> 0 <= f <= n;
  (* the mints that Lockup creates have no extensions *)
  eo_nft : forall k, pda_of E PLockup k = true -> plain E k = true }.

(** ** Ownership of account data *)

(** The program owning the data, for the two modelled programs. *)
Definition owner_prog (d : adata) : option program :=
  match d with
  | DStream _ | DLockupTreasury _ | DNftCollection _ => Some PLockup
  | DCampaign _ | DClaimReceipt | DMerkleTreasury _ => Some PMerkle
  | _ => None
  end.

(** ** Rules of the runtime and the token programs that bind everybody else *)

(** Nobody but program [p] changes its accounts, takes their lamports, creates accounts at its derived
    addresses, or spends from token accounts its derived addresses own. The last point is only assumed
    for associated token accounts (other token accounts may have been prepared with a close authority),
    and their balances are only kept if the mint has no extensions (a permanent delegate may take from
    any account of its token). *)
Record untouched (E : env) (p : program) (w w' : world) : Prop := {
  u_data : forall k d, wdat w !! k = Some d -> owner_prog d = Some p ->
    wdat w' !! k = Some d /\ lam w k <= lam w' k;
  u_new : forall k d, wdat w' !! k = Some d -> owner_prog d = Some p -> wdat w !! k = Some d;
  u_pda : forall k, pda_of E p k = true -> wdat w !! k = None -> wdat w' !! k = None;
  u_vault : forall k t, wdat w !! k = Some (DToken t) -> pda_of E p (t_owner t) = true ->
    ata_address E (t_owner t) (t_mint t) (t_prog t) = Ok k ->
    exists t', wdat w' !! k = Some (DToken t') /\ t_prog t' = t_prog t /\ t_mint t' = t_mint t /\
      t_owner t' = t_owner t /\ (plain E (t_mint t) = true -> t_amount t <= t_amount t') }.

(** A mint whose authority is a Metaplex-derived address (a master edition) can only be burned from (Token-2022 mints with
    extensions are left out: they may have a close authority). *)
Definition sealed_mints_kept (E : env) (w w' : world) : Prop :=
  forall k m a, wdat w !! k = Some (DMint m) -> m_authority m = Some a -> pda_of E PMetadata a = true ->
  plain E k = true -> exists m', wdat w' !! k = Some (DMint m') /\ m_prog m' = m_prog m /\ m_decimals m' = m_decimals m /\
    m_authority m' = Some a /\ m_supply m' <= m_supply m.

(** Sum of all balances of token [m], and the supply of [m]. *)
Definition balance_of (m : key) (d : adata) : Z :=
  match d with DToken t => if t_mint t =? m then t_amount t else 0 | _ => 0 end.
Definition total_balance (w : world) (m : key) : Z :=
  map_fold (fun _ d acc => balance_of m d + acc) 0 (wdat w).
Definition supply (w : world) (m : key) : Z :=
  match wdat w !! m with Some (DMint mt) => m_supply mt | _ => 0 end.

(** What the token programs guarantee of every world: balances are u64; the balances of a mint at an
    address derived by Lockup do not exceed its supply (not assumed of mints in general: wrapped SOL). *)
Record token_sane (E : env) (w : world) : Prop := {
  ts_range : forall k t, wdat w !! k = Some (DToken t) -> 0 <= t_amount t <= U64_MAX;
  ts_supply : forall m, pda_of E PLockup m = true -> total_balance w m <= supply w m }.

(** Addresses in token accounts are 32-byte keys. *)
Definition keys_sane (w : world) : Prop :=
  forall k t, wdat w !! k = Some (DToken t) -> key_ok (t_mint t) /\ key_ok (t_owner t).

(** A token account at an address derived by the Associated Token program was there before, with the same mint and token
    program, or is the associated account of its owner (creating it and changing its owner are two steps). *)
Definition ata_kept (E : env) (w w' : world) : Prop :=
  forall k t, wdat w' !! k = Some (DToken t) -> pda_of E PAssocToken k = true ->
  (exists t0, wdat w !! k = Some (DToken t0) /\ t_mint t0 = t_mint t /\ t_prog t0 = t_prog t) \/
  ata_address E (t_owner t) (t_mint t) (t_prog t) = Ok k.

(** Anything the rest of the chain can do between two instructions of the two programs. *)
Record others_step (E : env) (w w' : world) : Prop := {
  os_lockup : untouched E PLockup w w';
  os_merkle : untouched E PMerkle w w';
  os_sealed : sealed_mints_kept E w w';
  os_token : token_sane E w';
  os_ata : ata_kept E w w';
  os_keys : keys_sane w' }.

(** ** Steps and histories *)

(** Nobody signs for the programs' derived addresses from outside. *)
Definition signers_ok (E : env) (sg : list key) : Prop :=
  forall k, k ∈ sg -> pda_of E PLockup k = false /\ pda_of E PMerkle k = false.

Inductive action :=
| ALockup (sg : list key) (ix : lockup_ix)
| AMerkle (sg : list key) (ix : merkle_ix)
| AOthers.

(** How the cluster clock may move while others act. *)
Definition any_clock (a b : Z) : Prop := True.
Definition forward_clock (a b : Z) : Prop := 0 <= a <= b /\ b <= U64_MAX.

(** A failed instruction changes nothing (the transaction is rolled back), so it is no step. *)
Inductive step (E : env) (C : Z -> Z -> Prop) (w : world) : action -> list event -> world -> Prop :=
| step_lockup sg ix evs w' : signers_ok E sg -> lockup_exec E sg ix w = Ok (w', evs) ->
    step E C w (ALockup sg ix) evs w'
| step_merkle sg ix evs w' : signers_ok E sg -> merkle_exec E sg ix w = Ok (w', evs) ->
    step E C w (AMerkle sg ix) evs w'
| step_others w' : others_step E w w' -> C (wclock w) (wclock w') -> step E C w AOthers [] w'.

Definition trace := list (action * list event).

Inductive run (E : env) (C : Z -> Z -> Prop) (w0 : world) : trace -> world -> Prop :=
| run_nil : run E C w0 [] w0
| run_snoc tr w a evs w' : run E C w0 tr w -> step E C w a evs w' -> run E C w0 (tr ++ [(a, evs)]) w'.

(** Before the programs are deployed: none of their accounts, and nothing at their derived addresses. (A start at which
    associated accounts belong to the owners they were created for is no restriction: what happened to them since are steps.) *)
Record genesis (E : env) (w : world) : Prop := {
  g_data : forall k d, wdat w !! k = Some d -> owner_prog d = None;
  g_pda : forall k, pda_of E PLockup k = true \/ pda_of E PMerkle k = true -> wdat w !! k = None;
  g_token : token_sane E w;
  g_ata : forall k t, wdat w !! k = Some (DToken t) -> pda_of E PAssocToken k = true ->
    ata_address E (t_owner t) (t_mint t) (t_prog t) = Ok k;
  g_keys : keys_sane w }.

(** [history E C tr w]: [tr] leads from a genesis world to [w]. *)
Definition history (E : env) (C : Z -> Z -> Prop) (tr : trace) (w : world) : Prop :=
  exists w0, genesis E w0 /\ run E C w0 tr w.
(** The same, also recording the worlds on the way (the last is [w]). *)
Inductive passed (E : env) (C : Z -> Z -> Prop) (w0 : world) : trace -> list world -> world -> Prop :=
| passed_nil : passed E C w0 [] [w0] w0
| passed_snoc tr ws w a evs w' : passed E C w0 tr ws w -> step E C w a evs w' -> passed E C w0 (tr ++ [(a, evs)]) (ws ++ [w']) w'.
Definition history_via (E : env) (C : Z -> Z -> Prop) (tr : trace) (ws : list world) (w : world) : Prop :=
  exists w0, genesis E w0 /\ passed E C w0 tr ws w.
Definition reachable (E : env) (w : world) : Prop := exists tr, history E any_clock tr w.
(** Reachable with a clock that never went backwards. *)
Definition reachable_fwd (E : env) (w : world) : Prop :=
  0 <= wclock w <= U64_MAX /\ exists tr, history E forward_clock tr w.
(** [w'] is [w] or a later world. *)
Definition later (E : env) (w w' : world) : Prop := exists tr, run E any_clock w tr w'.
Definition later_fwd (E : env) (w w' : world) : Prop :=
  exists tr, run E forward_clock w tr w' /\ 0 <= wclock w <= U64_MAX.

Definition events (tr : trace) : list event := flat_map snd tr.
