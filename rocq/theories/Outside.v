(** What everybody else can do, written out instead of assumed: the operations of the token programs, the System program,
    the Associated Token program, Metaplex and unrelated programs, by arbitrary signers. Nothing here is in /repo; it is the
    documented behaviour of those programs (spl-token processor.rs, spl-token-2022, associated-token-account), taken as
    permissively as the properties allow: rent, fees, formats and the accounts' own guards (required memo, CPI guard) are
    not enforced. A "signer" may also be a multisig account of a token program whose quorum signed: its address is not
    derived, because its creation takes a signature. *)
From Verif Require Export History.

(** Delegate with allowance, and close authority, of a token account. *)
Record side := Side { delegate : option (key * Z); closer : option key }.
Definition no_side : side := Side None None.

(** A world together with the token accounts' delegates and close authorities. *)
Record chain := Chain { on : world; sides : gmap key side }.
Definition side_of (c : chain) (k : key) : side := default no_side (sides c !! k).

(** Writing or removing account data. *)
Definition wput (k : key) (o : option adata) (w : world) : world := World (wlam w) (partial_alter (fun _ => o) k (wdat w)) (wclock w).
Definition put (k : key) (o : option adata) (c : chain) : chain := Chain (wput k o (on c)) (sides c).
Definition put_side (k : key) (s : side) (c : chain) : chain := Chain (on c) (<[k := s]> (sides c)).
Definition put_lam (k : key) (n : Z) (c : chain) : chain := Chain (set_lam k n (on c)) (sides c).

Inductive outside_op :=
| OClock (t : Z)
| OLamports (k : key) (n : Z)                      (* transfers, fees, rent, airdrops: the balance of one account becomes [n] *)
| OForeign (k : key) (d : option adata)            (* an unrelated program writes one of its accounts (also: oracle feeds) *)
| OMetaplex (k : key) (d : option adata)           (* Metaplex writes one of its records *)
| OInitMint (k : key) (tp : tprog) (decimals : Z) (auth freeze : option key)
| OInitAccount (k : key) (tp : tprog) (mintk owner : key) (frozen : bool)
| OCreateAta (k : key) (tp : tprog) (mintk owner : key) (frozen : bool)
| OTransfer (tp : tprog) (from to auth mintk : key) (amount : Z)
| OApprove (k auth d : key) (n : Z)
| ORevoke (k auth : key)
| OMintTo (tp : tprog) (mintk to auth : key) (amount : Z)
| OBurn (tp : tprog) (k mintk auth : key) (amount : Z)
| OFreeze (k auth : key) (frozen : bool)
| OSetOwner (k auth new : key)
| OSetCloser (k auth : key) (new : option key)
| OSetMintAuth (k auth : key) (new : option key)
| OSetFreezeAuth (k auth : key) (new : option key)
| OClose (k auth : key)                            (* wrapped SOL becomes lamports; they go elsewhere by [OLamports] *)
| OCloseMint (k : key)                             (* Token-2022 mint close authority *)
| OSync (k : key) (n : Z)                          (* sync_native: [n] lamports become wrapped SOL *)
| OExtension (k : key) (n : Z).                    (* confiscation by a permanent delegate, confidential transfers, ... *)

(** Data of neither of the two programs, of no token program and not of Metaplex. *)
Definition foreign (o : option adata) : bool := match o with None | Some DOther | Some (DFeed _ _ _) => true | _ => false end.
Definition metaplex (o : option adata) : bool := match o with None | Some (DMetadata _ _ _ _ _ _) | Some (DEdition _) => true | _ => false end.

(** Addresses that nobody can sign for from outside: those derived by the four programs. *)
Definition derived (E : env) (k : key) : bool := pda_of E PLockup k || pda_of E PMerkle k || pda_of E PAssocToken k || pda_of E PMetadata k.

(** The owner, or the delegate within the allowance. *)
Definition may_spend (sg : list key) (s : side) (t : tokacc) (auth : key) (amount : Z) : res side :=
  let! _ := check_signer sg auth in
  if t_owner t =? auth then Ok s
  else match delegate s with
       | Some (d, n) => let! _ := ensure ((d =? auth) && (amount <=? n)) ECpi in Ok (Side (Some (d, n - amount)) (closer s))
       | None => Err ECpi
       end.

(** [native]: the mint of wrapped SOL. *)
Definition outside (E : env) (native : key) (sg : list key) (o : outside_op) (c : chain) : res chain :=
  let w := on c in
  match o with
  | OClock t => Ok (Chain (World (wlam w) (wdat w) t) (sides c))
  | OLamports k n =>
      let! _ := ensure (match wdat w !! k with
                        | Some d => match owner_prog d with Some _ => lam w k <=? n | None => true end
                        | None => true end) ECpi in
      Ok (Chain (set_lam k n w) (sides c))
  | OForeign k d =>
      let! _ := ensure (foreign (wdat w !! k) && foreign d) ECpi in
      (* a new account is created with the signature of its address, which no foreign program has for a derived one *)
      let! _ := ensure (bool_decide (wdat w !! k <> None) || negb (derived E k)) ECpi in
      Ok (put k d c)
  | OMetaplex k d =>
      let! _ := ensure (metaplex (wdat w !! k) && metaplex d) ECpi in
      let! _ := ensure (bool_decide (wdat w !! k <> None) || pda_of E PMetadata k) ECpi in
      Ok (put k d c)
  | OInitMint k tp decimals auth freeze =>
      let! _ := ensure (bool_decide (wdat w !! k = None) && negb (derived E k)) ECpi in
      Ok (put k (Some (DMint (Mint tp 0 decimals auth freeze))) c)
  | OInitAccount k tp mintk owner frozen =>
      let! _ := ensure (bool_decide (wdat w !! k = None) && negb (derived E k)) ECpi in
      let! m := load_mint w mintk in
      let! _ := ensure (tprog_eqb (m_prog m) tp && is_key mintk && is_key owner) ECpi in
      Ok (put k (Some (DToken (TokAcc tp mintk owner 0 frozen))) c)
  | OCreateAta k tp mintk owner frozen =>
      let! a := ata_address E owner mintk tp in
      let! _ := ensure (k =? a) ECpi in
      let! _ := ensure (bool_decide (wdat w !! k = None)) ECpi in
      let! m := load_mint w mintk in
      let! _ := ensure (tprog_eqb (m_prog m) tp && is_key mintk && is_key owner) ECpi in
      Ok (put k (Some (DToken (TokAcc tp mintk owner 0 frozen))) c)
  | OTransfer tp from to auth mintk amount =>
      let! tf := load_token w from in
      let! m := load_mint w mintk in
      let! td := load_token w to in
      let! _ := ensure (tprog_eqb (t_prog tf) tp && tprog_eqb (t_prog td) tp && tprog_eqb (m_prog m) tp) ECpi in
      let! _ := ensure (negb (t_frozen tf) && negb (t_frozen td)) ECpi in
      let! _ := ensure ((0 <=? amount) && (amount <=? t_amount tf)) ECpi in
      let! _ := ensure ((t_mint tf =? mintk) && (t_mint td =? mintk)) ECpi in
      let! s := may_spend sg (side_of c from) tf auth amount in
      let! fee := of_option (mint_withholds E mintk from to (wclock w) amount) ECpi in
      let c := put_side from s c in
      if from =? to then Ok c
      else
        let! _ := ensure (t_amount td + (amount - fee) <=? U64_MAX) ECpi in
        Ok (put to (Some (DToken (with_amount td (t_amount td + (amount - fee)))))
             (put from (Some (DToken (with_amount tf (t_amount tf - amount)))) c))
  | OApprove k auth d n =>
      let! t := load_token w k in
      let! _ := check_signer sg auth in
      let! _ := ensure ((t_owner t =? auth) && negb (t_frozen t)) ECpi in
      Ok (put_side k (Side (Some (d, n)) (closer (side_of c k))) c)
  | ORevoke k auth =>
      let! t := load_token w k in
      let! _ := check_signer sg auth in
      let! _ := ensure (t_owner t =? auth) ECpi in
      Ok (put_side k (Side None (closer (side_of c k))) c)
  | OMintTo tp mintk to auth amount =>
      let! m := load_mint w mintk in
      let! t := load_token w to in
      let! _ := ensure (tprog_eqb (m_prog m) tp && tprog_eqb (t_prog t) tp) ECpi in
      let! _ := ensure (negb (t_frozen t)) ECpi in
      let! _ := ensure (t_mint t =? mintk) ECpi in
      let! _ := check_signer sg auth in
      let! _ := ensure (bool_decide (m_authority m = Some auth)) ECpi in
      let! _ := ensure ((0 <=? amount) && negb (mintk =? native)) ECpi in
      let! _ := ensure (m_supply m + amount <=? U64_MAX) ECpi in
      let! _ := ensure (t_amount t + amount <=? U64_MAX) ECpi in
      Ok (put to (Some (DToken (with_amount t (t_amount t + amount))))
           (put mintk (Some (DMint (Mint (m_prog m) (m_supply m + amount) (m_decimals m) (m_authority m) (m_freeze m)))) c))
  | OBurn tp k mintk auth amount =>
      let! m := load_mint w mintk in
      let! t := load_token w k in
      let! _ := ensure (tprog_eqb (m_prog m) tp && tprog_eqb (t_prog t) tp) ECpi in
      let! _ := ensure (negb (t_frozen t)) ECpi in
      let! _ := ensure (t_mint t =? mintk) ECpi in
      let! _ := ensure ((0 <=? amount) && (amount <=? t_amount t) && (amount <=? m_supply m) && negb (mintk =? native)) ECpi in
      let! s := may_spend sg (side_of c k) t auth amount in
      Ok (put k (Some (DToken (with_amount t (t_amount t - amount))))
           (put mintk (Some (DMint (Mint (m_prog m) (m_supply m - amount) (m_decimals m) (m_authority m) (m_freeze m))))
             (put_side k s c)))
  | OFreeze k auth frozen =>
      let! t := load_token w k in
      let! m := load_mint w (t_mint t) in
      let! _ := ensure (bool_decide (m_freeze m = Some auth)) ECpi in
      (* the freeze authority of an NFT is a Metaplex record, for which Metaplex signs *)
      let! _ := ensure (bool_decide (auth ∈ sg) || pda_of E PMetadata auth) ECpi in
      Ok (put k (Some (DToken (TokAcc (t_prog t) (t_mint t) (t_owner t) (t_amount t) frozen))) c)
  | OSetOwner k auth new =>
      let! t := load_token w k in
      let! _ := check_signer sg auth in
      let! _ := ensure ((t_owner t =? auth) && is_key new) ECpi in
      Ok (put k (Some (DToken (TokAcc (t_prog t) (t_mint t) new (t_amount t) (t_frozen t))))
           (put_side k (Side None (closer (side_of c k))) c))
  | OSetCloser k auth new =>
      let! t := load_token w k in
      let! _ := check_signer sg auth in
      let! _ := ensure ((t_owner t =? auth) || bool_decide (closer (side_of c k) = Some auth)) ECpi in
      Ok (put_side k (Side (delegate (side_of c k)) new) c)
  | OSetMintAuth k auth new =>
      let! m := load_mint w k in
      let! _ := check_signer sg auth in
      let! _ := ensure (bool_decide (m_authority m = Some auth)) ECpi in
      Ok (put k (Some (DMint (Mint (m_prog m) (m_supply m) (m_decimals m) new (m_freeze m)))) c)
  | OSetFreezeAuth k auth new =>
      let! m := load_mint w k in
      let! _ := check_signer sg auth in
      let! _ := ensure (bool_decide (m_freeze m = Some auth)) ECpi in
      Ok (put k (Some (DMint (Mint (m_prog m) (m_supply m) (m_decimals m) (m_authority m) new))) c)
  | OClose k auth =>
      let! t := load_token w k in
      let! _ := check_signer sg auth in
      let! _ := ensure ((t_amount t =? 0) || (t_mint t =? native)) ECpi in
      let! _ := ensure (match closer (side_of c k) with Some x => x =? auth | None => t_owner t =? auth end) ECpi in
      Ok (put k None (put_side k no_side (put_lam k (lam w k + (if t_mint t =? native then t_amount t else 0)) c)))
  | OCloseMint k =>
      let! m := load_mint w k in
      let! _ := ensure (tprog_eqb (m_prog m) Token2022 && negb (plain E k) && (m_supply m =? 0)) ECpi in
      Ok (put k None c)
  | OSync k n =>
      let! t := load_token w k in
      let! _ := ensure ((t_mint t =? native) && (0 <=? n) && (n <=? lam w k) && (t_amount t + n <=? U64_MAX)) ECpi in
      Ok (put k (Some (DToken (with_amount t (t_amount t + n)))) (put_lam k (lam w k - n) c))
  | OExtension k n =>
      let! t := load_token w k in
      let! _ := ensure (negb (plain E (t_mint t)) && (0 <=? n) && (n <=? U64_MAX)) ECpi in
      Ok (put k (Some (DToken (with_amount t n))) c)
  end.

(** Who can sign from outside: 32-byte addresses not derived by the four programs. *)
Definition outsiders (E : env) (sg : list key) : Prop := forall k, k ∈ sg -> derived E k = false /\ key_ok k.

(** ** Runs of the whole chain *)
Inductive cstep (E : env) (native : key) (c : chain) : action -> list event -> chain -> Prop :=
| cstep_lockup sg ix evs w' : signers_ok E sg -> lockup_exec E sg ix (on c) = Ok (w', evs) ->
    cstep E native c (ALockup sg ix) evs (Chain w' (sides c))
| cstep_merkle sg ix evs w' : signers_ok E sg -> merkle_exec E sg ix (on c) = Ok (w', evs) ->
    cstep E native c (AMerkle sg ix) evs (Chain w' (sides c))
| cstep_outside sg o c' : outsiders E sg -> outside E native sg o c = Ok c' -> cstep E native c AOthers [] c'.

(** [crun E native c0 tr cs c]: the steps [tr] lead from [c0] to [c]; [cs] are the chains on the way, [c] the last. *)
Inductive crun (E : env) (native : key) (c0 : chain) : trace -> list chain -> chain -> Prop :=
| crun_nil : crun E native c0 [] [c0] c0
| crun_snoc tr cs c a evs c' : crun E native c0 tr cs c -> cstep E native c a evs c' -> crun E native c0 (tr ++ [(a, evs)]) (cs ++ [c']) c'.

(** The chain before anything happened: no account has data. *)
Definition empty_chain (l : gmap key Z) (t : Z) : chain := Chain (World l ∅ t) ∅.
