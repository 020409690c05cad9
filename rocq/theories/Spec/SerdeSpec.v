(** Specification vocabulary for serialized data: the range of the Rust field
    types, and what it means to survive a round trip. *)
From Verif Require Import Model.Base Model.Defense Model.MCaptcha Model.HashCache Model.Pow Model.Json Model.Serde
  Spec.DefenseSpec.

Definition u32 (n : N) : Prop := n <= u32_max.
Definition u64 (n : N) : Prop := n <= u64_max.
Definition ok_defense (d : defense) : Prop := Forall u32_level (d_levels d) /\ u64 (d_current d).
Definition ok_mcaptcha (m : mcaptcha) : Prop := u32 (m_visitors m) /\ ok_defense (m_defense m) /\ u64 (m_duration m).
Definition ok_create (c : create_mcaptcha) : Prop := Forall u32_level (cm_levels c) /\ u64 (cm_duration c).
Definition ok_visit (v : add_visitor_result) : Prop := u64 (avr_duration v) /\ u32 (avr_difficulty_factor v).
Definition ok_challenge (c : add_challenge) : Prop := u32 (ac_difficulty c) /\ u64 (ac_duration c).
Definition ok_cache_pow (c : cache_pow) : Prop := u32 (cp_difficulty_factor c) /\ u64 (cp_duration c).
Definition ok_cached (c : cached_pow) : Prop := u32 (cc_difficulty_factor c) /\ u64 (cc_duration c).
Definition ok_result (c : cache_result) : Prop := u64 (cr_duration c).
Definition ok_pow_config (c : pow_config) : Prop := u32 (pc_difficulty_factor c).
Definition ok_work (w : work) : Prop := u64 (w_nonce w).
Definition ok_site (x : string * mcaptcha) : Prop := ok_mcaptcha x.2.

(** Written out and read back, every value is the same. *)
Definition survives {A} (enc : A -> json) (dec : json -> option A) (ok : A -> Prop) : Prop :=
  forall x, ok x -> from_str dec (to_string enc x) = Some x.
