(** Specification vocabulary for the work queue: what can be read off a trace
    of observations, and where jobs are in a state. *)
From Verif Require Import Model.Base Model.Queue.

(** Answers to [add], in order. *)
Definition answered (tr : list qout) : list job :=
  omap (fun o => match o with QAnswer j _ _ => Some j | _ => None end) tr.
(** Jobs answered Ok with their IPs, in order. *)
Definition accepted (tr : list qout) : list (string * job) :=
  omap (fun o => match o with QAnswer j ip (Ok _) => Some (ip, j) | _ => None end) tr.
(** Jobs answered with an error. *)
Definition rejected (tr : list qout) : list job :=
  omap (fun o => match o with QAnswer j _ (Err _) => Some j | _ => None end) tr.
(** Jobs handed to runners: (runner, (IP, job)). *)
Definition handed (tr : list qout) : list (nat * (string * job)) :=
  omap (fun o => match o with QHand r ip j => Some (r, (ip, j)) | _ => None end) tr.
(** Jobs started and finished, with their runner. *)
Definition started (tr : list qout) : list (nat * job) :=
  omap (fun o => match o with QStart r j => Some (r, j) | _ => None end) tr.
Definition finished (tr : list qout) : list (nat * job) :=
  omap (fun o => match o with QFinish r j => Some (r, j) | _ => None end) tr.
(** Dispatch attempts: whose turn it was. *)
Definition tries (tr : list qout) : list string :=
  omap (fun o => match o with QTry _ ip => Some ip | _ => None end) tr.

(** Entries of one IP / of one runner. *)
Definition of_ip (ip : string) (l : list (string * job)) : list job :=
  omap (fun x => if decide (x.1 = ip) then Some x.2 else None) l.
Definition of_runner (r : nat) (l : list (nat * job)) : list job :=
  omap (fun x => if decide (x.1 = r) then Some x.2 else None) l.

(** Where jobs are. *)
Definition queue_of (s : qsys) (ip : string) : list job := default [] (im_queues (qs_im s) !! ip).
Definition waiting_in_queues (s : qsys) : list job :=
  concat (snd <$> map_to_list (im_queues (qs_im s))).
Definition proves (c : list rmsg) : list job :=
  omap (fun m => match m with RmProve j => Some j | RmStop => None end) c.
Definition running (st : rstate) : list job := match st with RRunning j => [j] | _ => [] end.
Definition running_jobs (s : qsys) : list job :=
  concat ((fun r => running (rn_state r)) <$> im_runners (qs_im s)).
Definition at_runners (s : qsys) : list job :=
  concat ((fun r => proves (rn_chan r)) <$> im_runners (qs_im s)).

(** No job panics. *)
Definition no_job_panics (es : list qevent) : Prop := Forall (fun e => forall r, e <> QePanic r) es.

(** Nothing is going on: no message anywhere, every runner waits. *)
Definition quiescent (s : qsys) : Prop :=
  qs_inbox s = [] /\
  Forall (fun r => rn_chan r = [] /\ rn_state r = RIdle) (im_runners (qs_im s)).

(** The calls of [add] in a schedule, and the calls answered, each as (call
    number, IP). *)
Definition calls (es : list qevent) : list (job * string) :=
  let ips := omap (fun e => match e with QeAdd ip => Some ip | _ => None end) es in
  zip (seq 0 (length ips)) ips.
Definition answered_calls (tr : list qout) : list (job * string) :=
  omap (fun o => match o with QAnswer j ip _ => Some (j, ip) | _ => None end) tr.
(** Requests for more work by runners which the dispatcher has not yet seen. *)
Definition requests_pending (s : qsys) : nat :=
  length (omap (fun m => match m with ImDispatch r => Some r | _ => None end) (qs_inbox s)).

Definition distinct_ips (tr : list qout) : nat := length (remove_dups (fst <$> accepted tr)).
