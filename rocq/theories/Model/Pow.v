(** Model of /repo/src/pow.rs: PoW datatypes and the job that checks a proof. *)
From Verif Require Import Model.Base.

(** pow.rs:30-36 [PoWConfig]. *)
Record pow_config := PoWConfig { pc_string : string; pc_difficulty_factor : N; pc_salt : string }.
(** pow.rs:52-57 [Work]. *)
Record work := Work { w_string : string; w_result : string; w_nonce : N; w_key : string }.
(** [mcaptcha_pow_sha256::PoW<String>]: what of it the code sets. *)
Record pow := PoW { pw_result : string; pw_nonce : N }.
Global Instance pow_config_eq_dec : EqDecision pow_config.
Proof. solve_decision. Defined.
Global Instance work_eq_dec : EqDecision work.
Proof. solve_decision. Defined.
Global Instance pow_eq_dec : EqDecision pow.
Proof. solve_decision. Defined.

(** pow.rs:38-47 [PoWConfig::new]; the string is [get_random(32)], drawn by the
    environment. *)
Definition pow_config_new (difficulty_factor : N) (salt : string) (random : string) : pow_config :=
  PoWConfig random difficulty_factor salt.
(** pow.rs:59-68 [From<Work> for PoW<String>]; both builder fields are set, so
    the unwrap cannot fail. *)
Definition pow_of_work (w : work) : pow := PoW (w_result w) (w_nonce w).

(** [mcaptcha_pow_sha256::Config] as seen by this crate: its salt and its two
    checks, about which nothing is assumed (a check may even panic). *)
Record pow_lib := PowLib {
  pl_salt : string;
  is_sufficient_difficulty : pow -> N -> outcome bool;
  is_valid_proof : pow -> string -> outcome bool }.

(** pow.rs:70-97 [QueuedWork] (its channel is modelled with the System). *)
Record queued_work := QueuedWork {
  qw_work : pow; qw_string : string; qw_difficulty_factor : N }.

(** pow.rs:98-117 [validate]: the values it sends, in order, and whether it
    returns (rather than panicking in the PoW library).  Send errors are
    ignored by the code. *)
Definition validate (l : pow_lib) (q : queued_work) : list bool * bool :=
  match is_sufficient_difficulty l (qw_work q) (qw_difficulty_factor q) with
  | Panic => ([], false)
  | Val s =>
      let first := if s then [] else [false] in
      match is_valid_proof l (qw_work q) (qw_string q) with
      | Panic => (first, false)
      | Val v => (first ++ (if v then [] else [false]) ++ [true], true)
      end
  end.

(** pow.rs:86: [crossbeam_channel::bounded(2)]. *)
Definition verdict_capacity : nat := 2.
