(** Base vocabulary of the model: panics, results, machine integers, errors.
    Models conventions of Rust used throughout /repo/src. *)
From stdpp Require Export base numbers strings gmap.
From stdpp Require Export list sorting.

Global Open Scope N_scope.

(** Rust build profile: with [Debug] an arithmetic overflow panics, with
    [Release] (overflow-checks off, the Cargo default for --release) it wraps.
    /repo/Cargo.toml sets no profile, so both occur. *)
Inductive profile := Debug | Release.

(** A computation that may panic (index out of bounds, unwrap on None/Err, checked arithmetic, todo!()). E.g.
    queue.rs:121, 127, 128; defense.rs:216; system.rs:79-83. *)
Inductive outcome (A : Type) := Val (a : A) | Panic.
Arguments Val {A} a.
Arguments Panic {A}.

(** Sequencing of such computations; no code of its own. *)
Definition obind {A B} (x : outcome A) (f : A -> outcome B) : outcome B :=
  match x with Val a => f a | Panic => Panic end.
Notation "'olet' x := e 'in' k" := (obind e (fun x => k))
  (at level 200, x pattern, e at level 100, k at level 200, right associativity).

(** errors.rs:27-115 [CaptchaError].  The payloads of RedisError and RecvError
    are opaque library values: RedisError keeps a string, RecvError nothing. *)
Inductive captcha_error :=
| LevelEmpty
| DifficultyFactorZero
| CaptchaDurationZero
| SetDifficultyFactor
| SetVisitorThreshold
| DuplicateVisitorCount
| DecreaseingDifficultyFactor
| MailboxError
| InsuffiencientDifficulty
| StringNotFound
| MCaptchaKeyValidationFail
| InvalidPoW
| PleaseSetValue (s : string)
| RedisError (s : string)
| RecvError
| MCaptchaRedisModuleError
| MCaptchaRedisModuleIsNotLoaded
| MCaptchaRediSModuleCommandNotFound (s : string)
| QueueFull.

(** errors.rs:143 [CaptchaResult]. *)
Inductive result (A : Type) := Ok (a : A) | Err (e : captcha_error).
Arguments Ok {A} a.
Arguments Err {A} e.

Global Instance captcha_error_eq_dec : EqDecision captcha_error.
Proof. solve_decision. Defined.
Global Instance result_eq_dec {A} `{EqDecision A} : EqDecision (result A).
Proof. solve_decision. Defined.
Global Instance outcome_eq_dec {A} `{EqDecision A} : EqDecision (outcome A).
Proof. solve_decision. Defined.

(** Ranges of the machine integers (u32, u64/usize on a 64-bit target). *)
Definition u32_max : N := 4294967295.
Definition u64_max : N := 18446744073709551615.

(** [a + b] on u32. *)
Definition u32_add (p : profile) (a b : N) : outcome N :=
  if a + b <=? u32_max then Val (a + b)
  else match p with Debug => Panic | Release => Val (a + b - (u32_max + 1)) end.

(** [a + b] and [a - b] on usize. E.g. queue.rs:121-122; defense.rs:192, 199. *)
Definition usize_add (p : profile) (a b : N) : outcome N :=
  if a + b <=? u64_max then Val (a + b)
  else match p with Debug => Panic | Release => Val (a + b - (u64_max + 1)) end.
Definition usize_sub (p : profile) (a b : N) : outcome N :=
  if b <=? a then Val (a - b)
  else match p with Debug => Panic | Release => Val (a + (u64_max + 1) - b) end.

(** [Vec::len] as a machine integer, and indexing [v[i]] / [v.get(i)]. E.g. queue.rs:119, 127;
    defense.rs:191-222. *)
Definition vlen {A} (l : list A) : N := N.of_nat (length l).
Definition vget {A} (l : list A) (i : N) : option A :=
  if i <? vlen l then l !! N.to_nat i else None.
Definition vindex {A} (l : list A) (i : N) : outcome A :=
  match vget l i with Some a => Val a | None => Panic end.

(** [Option::unwrap]. E.g. queue.rs:127-128; system.rs:79-83. *)
Definition unwrap {A} (o : option A) : outcome A :=
  match o with Some a => Val a | None => Panic end.

(** Nanoseconds per second: [Duration::new(d, 0)] is [d * NS] ticks. *)
Definition NS : N := 1000000000.
