(** Specification vocabulary: how much service a call on a System on Redis needs. *)
From Verif Require Import Model.Base Model.MCaptcha Model.HashCache Model.Pow Model.System Model.Redis Model.RedisActor Model.SystemProgram
  Model.SystemShared Model.RedisSystem.

(** [x], happening in [s], is a step for call [n]: its own, or a step of the actor
    it waits for, which takes a message or gets Redis's reply. *)
Definition serves (n : nat) (s : rsys) (x : rsevent) : bool :=
  match x with
  | SvAsk m | SvDo m _ | SvReturn m => (m =? n)%nat
  | SvActor w ReTake | SvActor w (ReReply _) =>
      match rs_calls s !! n with Some (_, Some (w', _)) => bool_decide (w' = w) | _ => false end
  | _ => false
  end.
(** How many there are in a run. *)
Fixpoint served (k : conn) (l : pow_lib) (n : nat) (s : rsys) (es : list rsevent) : nat :=
  match es with
  | [] => 0
  | x :: r => (if serves n s x then 1 else 0) + match rs_step k l s x with Some (s', _) => served k l n s' r | None => 0 end
  end%nat.
(** The messages an actor has not done with. *)
Definition load (a : ractor) : nat := (length (ra_box a) + match ra_cur a with Some _ => 1 | None => 0 end)%nat.
(** Whenever call [n] sends a message, the actor has at most [b] to do. *)
Fixpoint at_most (k : conn) (l : pow_lib) (b n : nat) (s : rsys) (es : list rsevent) : Prop :=
  match es with
  | [] => True
  | x :: r =>
      (match x with
       | SvAsk m => m = n -> forall p v w a, rs_calls s !! n = Some (p, v) -> message p = Some (w, a) -> (load (actor w s) <= b)%nat
       | _ => True
       end) /\
      match rs_step k l s x with Some (s', _) => at_most k l b n s' r | None => True end
  end.
(** Requests, other steps, and the return: each request waits for those before it,
    two steps each, and itself. *)
Definition enough (c : call) (b : nat) : nat :=
  match c with
  | CGetPow _ => 2 * (1 + 2 * (b + 1)) + 1 + 1
  | CVerifyPow _ _ => 2 * (1 + 2 * (b + 1)) + 3 + 1
  | CValidate _ => (1 + 2 * (b + 1)) + 1
  end%nat.

(** What the others say: Redis, the random generator, the queue and the runners.
    They may go by anything. *)
Record world := World {
  wo_reply : rsys -> rreply;
  wo_draw : rsys -> string;
  wo_submit : rsys -> submission;
  wo_verdict : rsys -> queued_work -> option bool }.
(** The next step for call [n]. *)
Definition next_for (W : world) (n : nat) (s : rsys) : rsevent :=
  match rs_calls s !! n with
  | Some (p, v) =>
      match v with
      | Some (w, _) => SvActor w (match ra_cur (actor w s) with Some _ => ReReply (wo_reply W s) | None => ReTake end)
      | None =>
          match p with
          | PDraw _ => SvDo n (XDraw (wo_draw W s))
          | PSubmit _ _ _ => SvDo n (XSubmit (wo_submit W s))
          | PVerdict q _ => SvDo n (XVerdict (wo_verdict W s q))
          | PRet _ => SvReturn n
          | _ => SvAsk n
          end
      end
  | None => SvReturn n
  end.
(** Up to [j] of them; what happens. *)
Fixpoint attend (k : conn) (l : pow_lib) (W : world) (n j : nat) (s : rsys) : list rsout :=
  match j with
  | O => []
  | S j => match rs_step k l s (next_for W n s) with Some (s', o) => o ++ attend k l W n j s' | None => [] end
  end.
