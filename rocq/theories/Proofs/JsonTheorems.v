(** Proofs of the theorems of Properties/JsonProperties.v. *)
From Coq Require Import Ascii ZifyBool ZifyN ZifyNat Lia.
From Verif Require Import Model.Base Model.Defense Model.MCaptcha Model.HashCache Model.Pow Model.Json Model.Serde
  Spec.JsonSpec Proofs.JsonProofs Proofs.GrammarProofs Proofs.MessageProofs.

Lemma c112_grammar :
  (forall v t, parse t = Some v <-> json_text v t) /\
  (forall v v' t, json_text v t -> json_text v' t -> v = v') /\
  (forall v, json_text v (print v)).
Proof.
  split_and!; [exact parse_json| |].
  - intros v v' t H%parse_json H'%parse_json. congruence.
  - intros v. apply parse_json, parse_print.
Qed.

Lemma c112_messages :
  reads_exactly decode_level is_level /\ reads_exactly decode_defense is_defense /\
  reads_exactly decode_mcaptcha is_mcaptcha /\ reads_exactly decode_create is_create /\
  reads_exactly decode_visit is_visit /\ reads_exactly decode_challenge is_challenge /\
  reads_exactly decode_cache_pow is_cache_pow /\ reads_exactly decode_cached is_cached /\
  reads_exactly decode_result is_result /\ reads_exactly decode_verify is_verify /\
  reads_exactly decode_pow_config is_pow_config /\ reads_exactly decode_work is_work /\
  reads_exactly decode_add_site (is_site "id") /\ reads_exactly decode_internal (is_site "name") /\
  reads_exactly decode_rename is_rename /\ reads_exactly decode_dump is_dump.
Proof.
  split_and!; apply takes_reads;
    [exact takes_level|exact takes_defense|exact takes_mcaptcha|exact takes_create|exact takes_visit|exact takes_challenge
    |exact takes_cache_pow|exact takes_cached|exact takes_result|exact takes_verify|exact takes_pow_config|exact takes_work
    |exact (takes_site "id")|exact (takes_site "name")|exact takes_rename|exact takes_dump].
Qed.
