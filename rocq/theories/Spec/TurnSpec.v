(** Specification vocabulary: how much service a call on an in-memory System needs. *)
From Verif Require Import Model.Base Model.Master Model.HashCache Model.Queue Model.Pow Model.System
  Spec.QueueSpec Spec.SystemSpec Spec.ExecutorSpec.

(** Runner [r] is working on job [j] or has it in its channel. *)
Definition holds (q : qsys) (r : nat) (j : job) : bool :=
  match im_runners (qs_im q) !! r with
  | Some x => bool_decide (j ∈ running (rn_state x) ++ proves (rn_chan x))
  | None => false
  end.
(** No verdict on job [j] is there to be read. *)
Definition no_verdict (s : ssys) (j : job) : bool :=
  match sy_jobs s !! j with Some v => match vj_buf v with [] => true | _ => false end | None => false end.

(** [e], happening in [s], is a step for call [n]: its own; or, while it waits for the Master's
    answer, one of the future that will give it; for the queue's answer, one of the dispatcher;
    for the verdict, one of the runner that has its work. *)
Definition turn_for (n : nat) (s : ssys) (e : sevent) : bool :=
  match e with
  | SeAct m _ => (m =? n)%nat
  | SeMaster (MeTask t) =>
      match sy_clients s !! n, my_tasks (sy_m s) !! t with
      | Some (GpWait _ k), Some (TVisit (Some k') _) => (k' =? k)%nat && bool_decide (sy_replies s !! k = None)
      | _, _ => false
      end
  | SeManager =>
      match sy_clients s !! n with
      | Some (VpAnswer _ _ j) => bool_decide (sy_answers s !! j = None)
      | _ => false
      end
  | SeRecv r | SeSend r | SeEnd r =>
      match sy_clients s !! n with
      | Some (VpPoll _ _ j) => no_verdict s j && holds (sy_q s) r j
      | _ => false
      end
  | _ => false
  end.
(** How many there are in a run. *)
Fixpoint turns (p : profile) (l : pow_lib) (n : nat) (s : ssys) (es : list sevent) : nat :=
  match es with
  | [] => 0
  | e :: r => (if turn_for n s e then 1 else 0) + match s_step p l s e with Some (s', _) => turns p l n s' r | None => 0 end
  end%nat.

(** What the queue has not done with: messages to the dispatcher, and the jobs of the runners. *)
Definition burden (q : qsys) : nat :=
  (length (qs_inbox q) + length (at_runners q) + length (running_jobs q))%nat.
(** Whenever call [n] gives its work to the queue, that is at most [b]. *)
Fixpoint burden_at_most (p : profile) (l : pow_lib) (b n : nat) (s : ssys) (es : list sevent) : Prop :=
  match es with
  | [] => True
  | e :: r =>
      match e with
      | SeAct m _ => m = n -> forall w ip c, sy_clients s !! n = Some (VpAdd w ip c) -> (burden (sy_q s) <= b)%nat
      | _ => True
      end /\
      match s_step p l s e with Some (s', _) => burden_at_most p l b n s' r | None => True end
  end.
(** Call [n] is waiting for the queue or for a verdict. *)
Definition queued (s : ssys) (n : nat) : Prop :=
  exists w c j, sy_clients s !! n = Some (VpAnswer w c j) \/ sy_clients s !! n = Some (VpPoll w c j).

(** The addresses from which verify_pow has been called. *)
Definition callers (tr : list sout) : list string :=
  remove_dups (omap (fun o => match o with SoCall _ (CVerifyPow _ ip) => Some ip | _ => None end) tr).
(** All work passes one of the two checks, and there are no more callers than runners. *)
Definition manageable (l : pow_lib) (wk : nat) (tr : list sout) : Prop :=
  all_decent l tr /\ (length (callers tr) <= wk)%nat.

(** Steps that suffice. get_pow and validate: their own, and one of the Master's future. verify_pow:
    two of its own up to the queue; one of the dispatcher for everything before it and for itself; reading the
    answer; four of the runner (take, at most two verdicts, end) for every job before it, two for its own; and
    three of its own. *)
Definition turns_enough (c : call) (b : nat) : nat :=
  match c with
  | CGetPow _ => 5
  | CVerifyPow _ _ => 2 + (b + 1) + 1 + (4 * b + 2) + 3
  | CValidate _ => 2
  end%nat.

(** The next step for call [n]. *)
Definition next_turn (rnd : ssys -> string) (n : nat) (s : ssys) : sevent :=
  match sy_clients s !! n with
  | Some (GpWait _ k) =>
      match sy_replies s !! k with
      | Some _ => SeAct n (rnd s)
      | None =>
          match List.find (fun t => turn_for n s (SeMaster (MeTask t))) (seq 0 (my_next (sy_m s))) with
          | Some t => SeMaster (MeTask t)
          | None => SeAct n (rnd s)
          end
      end
  | Some (VpAnswer _ _ j) => match sy_answers s !! j with Some _ => SeAct n (rnd s) | None => SeManager end
  | Some (VpPoll _ _ j) =>
      if no_verdict s j then
        match List.find (fun r => holds (sy_q s) r j) (seq 0 (length (im_runners (qs_im (sy_q s))))) with
        | Some r =>
            match running_job (sy_q s) r with
            | None => SeRecv r
            | Some i =>
                match sy_jobs s !! i with
                | Some v => match vj_todo v with [] => SeEnd r | _ => SeSend r end
                | None => SeEnd r
                end
            end
        | None => SeAct n (rnd s)
        end
      else SeAct n (rnd s)
  | _ => SeAct n (rnd s)
  end.
(** Up to [k] of them; what happens. *)
Fixpoint take_turns (p : profile) (l : pow_lib) (rnd : ssys -> string) (n k : nat) (s : ssys) : list sout :=
  match k with
  | O => []
  | S k => match s_step p l s (next_turn rnd n s) with Some (s', o) => o ++ take_turns p l rnd n k s' | None => [] end
  end.
