(** Properties of serialized data. *)
From Coq Require Import Ascii.
From Coq Require Import ZifyBool ZifyN ZifyNat Lia.
From Verif Require Import Model.Base Model.Defense Model.MCaptcha Model.HashCache Model.Pow Model.Json Model.Serde
  Spec.DefenseSpec Spec.MCaptchaSpec Spec.SerdeSpec Proofs.DefenseProofs Proofs.MCaptchaProofs Proofs.JsonProofs
  Proofs.SerdeProofs.
From Verif Require Export Proofs.SerdeTheorems.

(** C66: written as JSON and read back, every value is the same, whatever
    characters its strings contain. *)
Theorem C66_round_trip :
  survives encode_level decode_level u32_level /\
  survives encode_defense decode_defense ok_defense /\
  survives encode_mcaptcha decode_mcaptcha ok_mcaptcha /\
  survives encode_create decode_create ok_create /\
  survives encode_visit decode_visit ok_visit /\
  survives encode_challenge decode_challenge ok_challenge /\
  survives encode_cache_pow decode_cache_pow ok_cache_pow /\
  survives encode_cached decode_cached ok_cached /\
  survives encode_result decode_result ok_result /\
  survives encode_verify decode_verify (fun _ => True) /\
  survives encode_pow_config decode_pow_config ok_pow_config /\
  survives encode_work decode_work ok_work /\
  survives encode_add_site decode_add_site ok_site /\
  survives encode_internal decode_internal ok_site /\
  survives encode_rename decode_rename (fun _ => True).
Proof. exact c66_round_trip. Qed.
Print Assumptions C66_round_trip.

(** A dump of all sites, in whatever order the map lists them. *)
Theorem C66_dump : forall (m : gmap string mcaptcha) l,
  l ≡ₚ map_to_list m -> (forall k x, m !! k = Some x -> ok_mcaptcha x) ->
  from_str decode_dump (to_string encode_dump l) = Some m.
Proof. exact c66_dump. Qed.
Print Assumptions C66_dump.

(** A site in use is restored exactly as it was: same count, same position on
    the ladder. *)
Theorem C66_live_site : forall p m,
  reachable_mcaptcha p m -> u64 (m_duration m) ->
  from_str decode_mcaptcha (to_string encode_mcaptcha m) = Some m.
Proof. exact c66_live_site. Qed.
Print Assumptions C66_live_site.

(** The order of members does not matter. *)
Theorem C66_member_order : forall ks l l' s s',
  l ≡ₚ l' -> s = print (JObj l) -> s' = print (JObj l') ->
  from_str (fields ks) s = from_str (fields ks) s'.
Proof. exact c66_member_order. Qed.
Print Assumptions C66_member_order.

Definition quoted : string := String (chr 34) (String (chr 92) (String (chr 10) (String (chr 1) "é:{}"))).

Example C66_witness :
  let w := Work quoted "12"%string 18446744073709551615 ":"%string in
  from_str decode_work (to_string encode_work w) = Some w /\
  to_string encode_visit (AddVisitorResult 30 500) =
    ("{" +:+ print_str "duration" +:+ ":30," +:+ print_str "difficulty_factor" +:+ ":500}") /\
  from_str decode_visit ("{ " +:+ print_str "difficulty_factor" +:+ " : 500, " +:+ print_str "x" +:+ ":[null,1.5e3]," +:+
    print_str "duration" +:+ ":30 } ") = Some (AddVisitorResult 30 500) /\
  from_str decode_visit ("{" +:+ print_str "duration" +:+ ":18446744073709551616," +:+
    print_str "difficulty_factor" +:+ ":500}") = None.
Proof. vm_compute. done. Qed.

Example C66_dump_witness :
  let m := MCaptcha 3 (Defense [Level 50 500; Level 90 800] 1) 30 in
  from_str decode_dump (to_string encode_dump [("b", m); ("a:", m)]%string) = Some (<["a:" := m]> {["b" := m]})%string.
Proof. vm_compute. done. Qed.

(** C67: reading does not apply the builders' rules. *)
Theorem C67_unchecked_refuted :
  (** every value the field types allow is accepted *)
  (forall m, ok_mcaptcha m -> exists s, from_str decode_mcaptcha s = Some m) /\
  (** among them sites whose position is outside the ladder: the first visitor
      panics, and so does asking for the difficulty *)
  (forall p m, vlen (d_levels (m_defense m)) <= d_current (m_defense m) ->
     add_visitor p m = Panic /\ m_get_difficulty m = Panic) /\
  (** which the builders never make *)
  (forall p m, reachable_mcaptcha p m -> m_duration m <> 0 /\ exists l, current_level (m_defense m) = Val l) /\
  exists s m, from_str decode_mcaptcha s = Some m /\ d_levels (m_defense m) = [] /\ m_duration m = 0 /\
    forall p, ~ reachable_mcaptcha p m /\ add_visitor p m = Panic.
Proof. exact c67_unchecked_refuted. Qed.
Print Assumptions C67_unchecked_refuted.

Example C67_witness :
  let m := MCaptcha 7 (Defense [Level 90 800; Level 50 0] 5) 0 in
  ok_mcaptcha m /\ vlen (d_levels (m_defense m)) <= d_current (m_defense m) /\
  from_str decode_mcaptcha (to_string encode_mcaptcha m) = Some m.
Proof.
  split; [|by vm_compute]. unfold ok_mcaptcha, ok_defense, u32, u64, u32_level, u32_max, u64_max. cbn.
  split_and!; try lia. repeat (apply Forall_cons; split); cbn; try lia. by apply Forall_nil.
Qed.
