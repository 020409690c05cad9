(** Specification vocabulary for Redis-backed tokens: which tokens a history
    leaves alive. *)
From Coq Require Import Ascii.
From Verif Require Import Model.Base Model.HashCache Model.Redis Model.RedisActor Model.RedisTokens.

(** Site and token a call is about. *)
Definition about (c : token_call) : string * string :=
  match c with
  | TkAdd m => (cr_key m, cr_token m)
  | TkGet m | TkDel m => (vr_key m, vr_token m)
  end.
(** Redis takes the lifetime: not zero, and the deadline fits. *)
Definition storable (now secs : N) : Prop := 0 < secs /\ secs * 1000 + now <= 9223372036854775807.
(** The event has an effect on the store. *)
Definition effective (e : token_event) : Prop :=
  te_fate e <> NotSent /\
  match te_call e with TkAdd m => storable (te_now e) (cr_duration m) | _ => True end.
(** [same k t]: (k, t) counts as the token in question. It was stored, its
    lifetime is not over at [now], and nothing effective was done about it since. *)
Definition live (same : string * string -> Prop) (now : N) (h : list token_event) : Prop :=
  exists h1 e m h2, h = h1 ++ e :: h2 /\ te_call e = TkAdd m /\ effective e /\ same (cr_key m, cr_token m) /\
    now <= te_now e + cr_duration m * 1000 /\
    Forall (fun e' => effective e' -> ~ same (about (te_call e'))) h2.

Definition no_colon (s : string) : Prop := ~ (":"%char ∈ list_ascii_of_string s).
Definition outcome_of (h : list token_event) (e : token_event) : outcome rout :=
  snd (token_step (fst (token_run ∅ h)) e).

(** The server knows the command: COMMAND INFO does not say nil of it. *)
Definition command_there (info : string -> rreply) (c : string) : Prop :=
  exists v, info c = RrVal v /\ forall l, v <> RvArray (l ++ [RvNil]).

Definition i64 (z : Z) : Prop := (-9223372036854775808 <= z <= 9223372036854775807)%Z.
Definition i32 (z : Z) : Prop := (-2147483648 <= z <= 2147483647)%Z.
Definition names_module (dbg : rvalue -> string) (entry : rvalue) : Prop :=
  exists s i, entry = RvArray s /\ i ∈ s /\ contains module_name (dbg i) = true.
