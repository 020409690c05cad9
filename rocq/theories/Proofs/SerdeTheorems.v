(** Proofs of the theorems of Properties/SerdeProperties.v. *)
From Coq Require Import Ascii.
From Coq Require Import ZifyBool ZifyN ZifyNat Lia.
From Verif Require Import Model.Base Model.Defense Model.MCaptcha Model.HashCache Model.Pow Model.Json Model.Serde
  Spec.DefenseSpec Spec.MCaptchaSpec Spec.SerdeSpec Proofs.DefenseProofs Proofs.MCaptchaProofs Proofs.JsonProofs
  Proofs.SerdeProofs.

Lemma c66_round_trip :
  survives encode_level decode_level u32_level /\
  survives encode_defense decode_defense ok_defense /\
  survives encode_mcaptcha decode_mcaptcha ok_mcaptcha /\
  survives encode_create decode_create ok_create /\
  survives encode_visit decode_visit ok_visit /\
  survives encode_challenge decode_challenge ok_challenge /\
  survives encode_cache_pow decode_cache_pow ok_cache_pow /\
  survives encode_cached decode_cached ok_cached /\
  survives encode_result decode_result ok_result /\
  survives encode_verify decode_verify (fun _ => True) /\
  survives encode_pow_config decode_pow_config ok_pow_config /\
  survives encode_work decode_work ok_work /\
  survives encode_add_site decode_add_site ok_site /\
  survives encode_internal decode_internal ok_site /\
  survives encode_rename decode_rename (fun _ => True).
Proof.
  split_and!; apply survives_dec; auto using dec_level, dec_defense, dec_mcaptcha, dec_create, dec_visit,
    dec_challenge, dec_cache_pow, dec_cached, dec_result, dec_verify, dec_pow_config, dec_work, dec_add_site,
    dec_internal, dec_rename.
Qed.

Lemma c66_dump : forall (m : gmap string mcaptcha) l,
  l ≡ₚ map_to_list m -> (forall k x, m !! k = Some x -> ok_mcaptcha x) ->
  from_str decode_dump (to_string encode_dump l) = Some m.
Proof. intros m l Hp Hok. unfold from_str, to_string. rewrite parse_print. by apply dec_dump. Qed.

Lemma c66_live_site : forall p m,
  reachable_mcaptcha p m -> u64 (m_duration m) ->
  from_str decode_mcaptcha (to_string encode_mcaptcha m) = Some m.
Proof. intros p m Hr Hd. apply (survives_dec _ _ ok_mcaptcha dec_mcaptcha). by apply (reachable_ok p). Qed.

Lemma c66_member_order : forall ks l l' s s',
  l ≡ₚ l' -> s = print (JObj l) -> s' = print (JObj l') ->
  from_str (fields ks) s = from_str (fields ks) s'.
Proof.
  intros ks l l' s s' Hp -> ->. unfold from_str. rewrite !parse_print. cbn [mbind option_bind].
  by apply fields_perm.
Qed.

Lemma c67_unchecked_refuted :
  (** every value the field types allow is accepted *)
  (forall m, ok_mcaptcha m -> exists s, from_str decode_mcaptcha s = Some m) /\
  (** among them sites whose position is outside the ladder: the first visitor
      panics, and so does asking for the difficulty *)
  (forall p m, vlen (d_levels (m_defense m)) <= d_current (m_defense m) ->
     add_visitor p m = Panic /\ m_get_difficulty m = Panic) /\
  (** which the builders never make *)
  (forall p m, reachable_mcaptcha p m -> m_duration m <> 0 /\ exists l, current_level (m_defense m) = Val l) /\
  exists s m, from_str decode_mcaptcha s = Some m /\ d_levels (m_defense m) = [] /\ m_duration m = 0 /\
    forall p, ~ reachable_mcaptcha p m /\ add_visitor p m = Panic.
Proof.
  split_and!.
  - intros m Hm. exists (to_string encode_mcaptcha m). by apply (survives_dec _ _ ok_mcaptcha dec_mcaptcha).
  - exact no_level_panics.
  - intros p m Hr. split; [exact (proj2 (reachable_mwf p m Hr))|].
    destruct (difficulty_from_ladder p m Hr) as (l & _ & _ & Hl & _). by exists l.
  - set (m := MCaptcha 0 (Defense [] 0) 0). exists (to_string encode_mcaptcha m), m.
    split; [vm_compute; done|]. do 2 (split; [done|]). intros p. split; [|by destruct p].
    intros Hr. by destruct (proj2 (reachable_mwf p m Hr)).
Qed.
