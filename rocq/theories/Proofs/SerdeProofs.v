From Coq Require Import ZifyBool ZifyN ZifyNat Lia.
From Verif Require Import Model.Base Model.Defense Model.MCaptcha Model.HashCache Model.Pow Model.Json Model.Serde
  Spec.DefenseSpec Spec.MCaptchaSpec Spec.SerdeSpec Proofs.DefenseProofs Proofs.MCaptchaProofs Proofs.JsonProofs.

Lemma survives_dec {A} (enc : A -> json) dec (ok : A -> Prop) :
  (forall x, ok x -> dec (enc x) = Some x) -> survives enc dec ok.
Proof. intros H x Hx. unfold from_str, to_string. rewrite parse_print. cbn [mbind option_bind]. auto. Qed.

Lemma de_u32_num n : u32 n -> de_u32 (JNum n) = Some n.
Proof. unfold u32, de_u32, uint_le. intros H. by rewrite (proj2 (N.leb_le _ _) H). Qed.
Lemma de_u64_num n : u64 n -> de_u64 (JNum n) = Some n.
Proof. unfold u64, de_u64, uint_le. intros H. by rewrite (proj2 (N.leb_le _ _) H). Qed.
Lemma mapM_fmap_some {A B} (e : A -> B) (d : B -> option A) (ok : A -> Prop) l :
  (forall x, ok x -> d (e x) = Some x) -> Forall ok l -> mapM d (e <$> l) = Some l.
Proof.
  intros H. induction 1 as [|x l Hx Hl IH]; [done|]. rewrite fmap_cons.
  change (mapM d (e x :: (e <$> l))) with (y ← d (e x); k ← mapM d (e <$> l); Some (y :: k)). rewrite (H x Hx), IH. done.
Qed.

Lemma dec_level x : u32_level x -> decode_level (encode_level x) = Some x.
Proof.
  destruct x as [t d]. intros [H1 H2]. cbn in H1, H2.
  transitivity (t ← de_u32 (JNum t); d ← de_u32 (JNum d); Some (Level t d)); [done|].
  rewrite (de_u32_num t H1). cbn [mbind option_bind]. by rewrite (de_u32_num d H2).
Qed.
Lemma dec_levels l : Forall u32_level l -> de_vec decode_level (JArr (encode_level <$> l)) = Some l.
Proof. intros H. cbn [de_vec]. by apply (mapM_fmap_some _ _ u32_level); [exact dec_level|]. Qed.
Lemma dec_defense x : ok_defense x -> decode_defense (encode_defense x) = Some x.
Proof.
  destruct x as [ls c]. intros [H1 H2]. cbn in H1, H2.
  transitivity (l ← de_vec decode_level (JArr (encode_level <$> ls)); c ← de_u64 (JNum c); Some (Defense l c)); [done|].
  rewrite (dec_levels ls H1). cbn [mbind option_bind]. by rewrite (de_u64_num c H2).
Qed.
Lemma dec_mcaptcha x : ok_mcaptcha x -> decode_mcaptcha (encode_mcaptcha x) = Some x.
Proof.
  destruct x as [v d u]. intros (H1 & H2 & H3). cbn in H1, H2, H3.
  transitivity (t ← de_u32 (JNum v); d ← decode_defense (encode_defense d); u ← de_u64 (JNum u); Some (MCaptcha t d u)); [done|].
  rewrite (de_u32_num _ H1). cbn [mbind option_bind]. rewrite (dec_defense _ H2). cbn [mbind option_bind].
  by rewrite (de_u64_num _ H3).
Qed.
Lemma dec_create x : ok_create x -> decode_create (encode_create x) = Some x.
Proof.
  destruct x as [ls c]. intros [H1 H2]. cbn in H1, H2.
  transitivity (l ← de_vec decode_level (JArr (encode_level <$> ls)); c ← de_u64 (JNum c); Some (CreateMCaptcha l c)); [done|].
  rewrite (dec_levels ls H1). cbn [mbind option_bind]. by rewrite (de_u64_num c H2).
Qed.
Lemma dec_visit x : ok_visit x -> decode_visit (encode_visit x) = Some x.
Proof.
  destruct x as [a b]. intros [H1 H2]. cbn in H1, H2.
  transitivity (u ← de_u64 (JNum a); d ← de_u32 (JNum b); Some (AddVisitorResult u d)); [done|].
  rewrite (de_u64_num _ H1). cbn [mbind option_bind]. by rewrite (de_u32_num _ H2).
Qed.
Lemma dec_challenge x : ok_challenge x -> decode_challenge (encode_challenge x) = Some x.
Proof.
  destruct x as [a b c]. intros [H1 H2]. cbn in H1, H2.
  transitivity (d ← de_u32 (JNum a); u ← de_u64 (JNum b); Some (AddChallenge d u c)); [done|].
  rewrite (de_u32_num _ H1). cbn [mbind option_bind]. by rewrite (de_u64_num _ H2).
Qed.
Lemma dec_cache_pow x : ok_cache_pow x -> decode_cache_pow (encode_cache_pow x) = Some x.
Proof.
  destruct x as [s a b k]. intros [H1 H2]. cbn in H1, H2.
  transitivity (d ← de_u32 (JNum a); u ← de_u64 (JNum b); Some (CachePoW s d u k)); [done|].
  rewrite (de_u32_num _ H1). cbn [mbind option_bind]. by rewrite (de_u64_num _ H2).
Qed.
Lemma dec_cached x : ok_cached x -> decode_cached (encode_cached x) = Some x.
Proof.
  destruct x as [s a b]. intros [H1 H2]. cbn in H1, H2.
  transitivity (d ← de_u32 (JNum a); u ← de_u64 (JNum b); Some (CachedPoWConfig s d u)); [done|].
  rewrite (de_u32_num _ H1). cbn [mbind option_bind]. by rewrite (de_u64_num _ H2).
Qed.
Lemma dec_result x : ok_result x -> decode_result (encode_result x) = Some x.
Proof.
  destruct x as [t k u]. intros H. unfold ok_result in H. cbn in H.
  transitivity (u ← de_u64 (JNum u); Some (CacheResult t k u)); [done|]. by rewrite (de_u64_num _ H).
Qed.
Lemma dec_verify x : decode_verify (encode_verify x) = Some x.
Proof. by destruct x. Qed.
Lemma dec_pow_config x : ok_pow_config x -> decode_pow_config (encode_pow_config x) = Some x.
Proof.
  destruct x as [s d t]. intros H. unfold ok_pow_config in H. cbn in H.
  transitivity (d ← de_u32 (JNum d); Some (PoWConfig s d t)); [done|]. by rewrite (de_u32_num _ H).
Qed.
Lemma dec_work x : ok_work x -> decode_work (encode_work x) = Some x.
Proof.
  destruct x as [s r n k]. intros H. unfold ok_work in H. cbn in H.
  transitivity (n ← de_u64 (JNum n); Some (Work s r n k)); [done|]. by rewrite (de_u64_num _ H).
Qed.
Lemma dec_add_site x : ok_site x -> decode_add_site (encode_add_site x) = Some x.
Proof.
  destruct x as [s m]. intros H. unfold ok_site in H. cbn in H.
  transitivity (m ← decode_mcaptcha (encode_mcaptcha m); Some (s, m)); [done|]. by rewrite (dec_mcaptcha _ H).
Qed.
Lemma dec_internal x : ok_site x -> decode_internal (encode_internal x) = Some x.
Proof.
  destruct x as [s m]. intros H. unfold ok_site in H. cbn in H.
  transitivity (m ← decode_mcaptcha (encode_mcaptcha m); Some (s, m)); [done|]. by rewrite (dec_mcaptcha _ H).
Qed.
Lemma dec_rename x : decode_rename (encode_rename x) = Some x.
Proof. by destruct x. Qed.

(** Whole dumps. *)
Lemma insert_all_lookup {A} (l : list (string * A)) (acc : gmap string A) :
  NoDup l.*1 -> forall k,
  foldl (fun acc x => <[x.1 := x.2]> acc) acc l !! k =
    match (list_to_map l : gmap string A) !! k with Some x => Some x | None => acc !! k end.
Proof.
  revert acc. induction l as [|[k0 x] l IH]; intros acc Hnd k; [by cbn; rewrite lookup_empty|].
  cbn [fmap list_fmap fst] in Hnd. apply NoDup_cons in Hnd as [Hk0 Hnd].
  cbn [foldl list_to_map foldr fst snd curry]. rewrite IH by done. cbn [uncurry].
  destruct (decide (k = k0)) as [->|Hne].
  - rewrite lookup_insert, (not_elem_of_list_to_map_1 l k0 Hk0). by rewrite lookup_insert.
  - by rewrite !lookup_insert_ne by congruence.
Qed.
Lemma dec_dump (m : gmap string mcaptcha) l :
  l ≡ₚ map_to_list m -> (forall k x, m !! k = Some x -> ok_mcaptcha x) ->
  decode_dump (encode_dump l) = Some m.
Proof.
  intros Hp Hok. unfold encode_dump, decode_dump.
  assert (Hall : Forall ok_site l).
  { apply Forall_forall. intros [k x] Hin. rewrite Hp in Hin. apply elem_of_map_to_list in Hin. exact (Hok k x Hin). }
  rewrite (mapM_fmap_some (fun x : string * mcaptcha => (x.1, encode_mcaptcha x.2))
    (fun x : string * json => m ← decode_mcaptcha x.2; Some (x.1, m)) ok_site l); [|intros [k x] H; cbn [fst snd];
      by rewrite (dec_mcaptcha x H)|done].
  cbn [mbind option_bind]. f_equal. apply map_eq. intros k.
  assert (Hnd : NoDup l.*1) by (rewrite Hp; apply NoDup_fst_map_to_list).
  rewrite insert_all_lookup by done. rewrite lookup_empty.
  assert ((list_to_map l : gmap string mcaptcha) = m) as ->.
  { rewrite (list_to_map_proper l (map_to_list m) Hnd Hp). apply list_to_map_to_list. }
  by destruct (m !! k).
Qed.

(** Member order. *)
Lemma values_of_perm k l l' : l ≡ₚ l' -> values_of k l ≡ₚ values_of k l'.
Proof. intros H. unfold values_of. by rewrite H. Qed.
Lemma fields_perm ks l l' : l ≡ₚ l' -> fields ks (JObj l) = fields ks (JObj l').
Proof.
  intros H. cbn [fields]. induction ks as [|k ks IH]; [done|]. cbn [mapM]. rewrite IH.
  pose proof (values_of_perm k _ _ H) as Hv. destruct (values_of k l) as [|x [|y r]] eqn:E1.
  - apply Permutation_nil in Hv. by rewrite Hv.
  - apply Permutation_length_1_inv in Hv. by rewrite Hv.
  - destruct (values_of k l') as [|x' [|y' r']] eqn:E2; [| |done];
      apply Permutation_length in Hv; cbn in Hv; lia.
Qed.

(** Values in use are in range. *)
Lemma reachable_ok p m : reachable_mcaptcha p m -> u64 (m_duration m) -> ok_mcaptcha m.
Proof.
  intros Hr Hd. destruct (reachable_mwf p m Hr) as [(Hl & Hw & Hv) _]. destruct Hw as (_ & Hc & Hlen).
  split; [exact Hv|]. split; [|exact Hd]. split; [exact (ladder_u32 _ Hl)|]. unfold u64. lia.
Qed.
Lemma no_level_panics p m : vlen (d_levels (m_defense m)) <= d_current (m_defense m) ->
  add_visitor p m = Panic /\ m_get_difficulty m = Panic.
Proof.
  intros H. assert (Hv : forall l : level, vindex (d_levels (m_defense m)) (d_current (m_defense m)) <> Val l).
  { intros l Hl. apply vindex_val in Hl as [? _]. lia. }
  unfold add_visitor, m_get_difficulty, current_level, get_difficulty.
  destruct (vindex (d_levels (m_defense m)) (d_current (m_defense m))) as [l|]; [by destruct (Hv l)|].
  by destruct (u32_add p (m_visitors m) 1).
Qed.
