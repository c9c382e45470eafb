(** Vocabulary of the property statements, and the facts about views used by all of them. *)
From Verif Require Export PayExact ToyRun.

(** The NFT mint of a stream: the address Lockup derives from the stream's sender and salt. *)
Definition nft_mint_of (E : env) (s : stream_data) (nft : key) : Prop :=
  exists b, find_program_address E PLockup (nft_mint_seeds (s_sender s) (s_salt s)) = Ok (nft, b).

(** The stream account at [k] with its NFT mint: the two accounts every view of the stream takes. *)
Definition stream_at (E : env) (w : world) (k nft : key) (s : stream_data) : Prop :=
  wdat w !! k = Some (DStream s) /\ nft_mint_of E s nft.

(** Data of [w] and [w'] agree everywhere except at the addresses in [l]. *)
Definition unchanged_except (l : list key) (w w' : world) : Prop :=
  forall k, k ∉ l -> wdat w' !! k = wdat w !! k.

Lemma stream_at_inv E w k s : inv E w -> wdat w !! k = Some (DStream s) -> exists nft, stream_at E w k nft s.
Proof.
  intros Hi Hk. destruct (si_nft _ _ _ _ (li_stream _ _ (inv_lockup _ _ Hi) _ _ Hk)) as (nft & b & m & au & H & _).
  exists nft. split; [done|]. exists b. exact H.
Qed.
(** The proper accounts pass the account checks of the views in every reachable state. *)
Lemma view_at E w k nft s : inv E w -> stream_at E w k nft s -> stream_view E k nft w = Ok s.
Proof.
  intros Hi [Hk [b Hb]]. pose proof (li_stream _ _ (inv_lockup _ _ Hi) _ _ Hk) as Hs.
  destruct (si_nft _ _ _ _ Hs) as (nft' & b' & m & au & Hn & Hka & Hm & _).
  destruct (fpa_fun _ _ _ _ _ _ _ Hn Hb) as [-> ->].
  unfold stream_view, load_stream, load_mint, check_seeds_bump. rewrite Hk, Hm. cbn [rbind].
  apply fpa_cpa in Hka as [Hka _]. rewrite Hka. by rewrite bool_decide_true by done.
Qed.
(** Conversely: the accounts that pass are the proper ones, or the address hash collides. *)
Lemma view_at_inv E w k nft s : env_ok E -> inv E w -> key_ok nft -> stream_view E k nft w = Ok s ->
  stream_at E w k nft s \/
  exists nft', nft' <> nft /\ stream_at E w k nft' s /\
    collides E PLockup (seed_string (stream_seeds nft') (s_bump s)) (seed_string (stream_seeds nft) (s_bump s)).
Proof.
  intros HE Hi Hkn Hv. destruct (stream_view_inv _ _ _ _ _ Hv) as (Hk & _ & Ha).
  destruct (si_nft _ _ _ _ (li_stream _ _ (inv_lockup _ _ Hi) _ _ Hk)) as (nft' & b & m & au & Hn & Hka & _).
  pose proof (fpa_cpa _ _ _ _ _ Hka) as [Hc _].
  destruct (decide (nft' = nft)) as [->|Hne]; [left; split; [done|by exists b]|].
  right. exists nft'. split; [done|]. split; [split; [done|exists b; exact Hn]|].
  destruct (cpa_cases _ _ _ _ _ _ _ Hc Ha) as [Heq|?]; [|done].
  destruct (fpa_pda _ _ _ _ _ HE Hn) as [_ Hkn'].
  apply (lockup_seeds_inj (AStream nft') (AStream nft)) in Heq as [[= ?] _]; done.
Qed.
Lemma stream_at_key E w k nft s : env_ok E -> stream_at E w k nft s -> key_ok nft.
Proof. intros HE [_ [b Hb]]. by apply fpa_pda in Hb as [_ ?]. Qed.

(** The stream and its NFT mint stay where they are. *)
Lemma later_stream E w w' k nft s : env_ok E -> inv E w -> later E w w' -> stream_at E w k nft s ->
  exists s', stream_at E w' k nft s' /\ same_terms s s'.
Proof.
  intros HE Hi [tr Hr] [Hk Hn].
  destruct (run_stream (fun _ s' => same_terms s s') E any_clock w s tr w' k HE Hi Hr Hk (same_terms_refl s)) as (s' & Hk' & Ht).
  - intros w1 a evs w2 s1 s2 _ _ _ _ _ HP [(sg & ix & _ & _ & _ & _ & Hch)|(_ & -> & _)]; [|done].
    eapply same_terms_trans; [exact HP|]. by eapply stream_change_terms.
  - exists s'. split; [|done]. split; [done|]. destruct Ht as (T1 & _ & T2 & _). unfold nft_mint_of. rewrite T1, T2. exact Hn.
Qed.

Lemma fresh_neq (w : world) k d k' : wdat w !! k = Some d -> wdat w !! k' = None -> k <> k'.
Proof. congruence. Qed.
