(** Specification vocabulary for the Counter actor: what a schedule means. *)
From Verif Require Import Model.Base Model.MCaptcha Model.Counter.

(** Clock at the end of a schedule that starts at [t]. *)
Fixpoint clock (t : N) (es : list counter_event) : N :=
  match es with
  | [] => t
  | CeTick d :: r => clock (t + d) r
  | _ :: r => clock t r
  end.

(** Arrivals of a schedule: expiry identifier and arrival time.  The [k]-th
    arrival or restore of the counter's life gets expiry identifier [k]. *)
Fixpoint arrivals_of (k : nat) (t : N) (es : list counter_event) : list (nat * N) :=
  match es with
  | [] => []
  | CeMsg CmAddVisitor :: r => (k, t) :: arrivals_of (S k) t r
  | CeMsg (CmSetInternalData _) :: r => arrivals_of (S k) t r
  | CeTick d :: r => arrivals_of k (t + d) r
  | _ :: r => arrivals_of k t r
  end.

(** Arrivals whose expiry has not been delivered by the schedule. *)
Definition unexpired (es : list counter_event) (l : list (nat * N)) : list (nat * N) :=
  filter (fun a => CeFire (fst a) ∉ es) l.

(** Arrivals younger than [secs] seconds at time [now]. *)
Definition young (now secs : N) (l : list (nat * N)) : list (nat * N) :=
  filter (fun a => now < snd a + secs * NS) l.

Definition count {A} (l : list A) : N := N.of_nat (length l).

(** Schedules without restores and without Stop. *)
Definition visits_only (es : list counter_event) : Prop :=
  Forall (fun e => match e with
                   | CeMsg (CmSetInternalData _) | CeMsg CmStop => False
                   | _ => True end) es.
Definition no_restore (es : list counter_event) : Prop :=
  Forall (fun e => match e with CeMsg (CmSetInternalData _) => False | _ => True end) es.

(** No expiry is overdue: no timer may fire now. *)
Definition no_overdue (p : profile) (s : counter_sys) : Prop :=
  forall id, counter_step p s (CeFire id) = None.

(** What GetCurrentVisitorCount / GetInternalData answer now. *)
Definition reads_count (p : profile) (s : counter_sys) (n : N) : Prop :=
  counter_step p s (CeMsg CmGetCurrentVisitorCount) = Some (s, Some (CrCount n)).
Definition reads_data (p : profile) (s : counter_sys) (m : mcaptcha) : Prop :=
  counter_step p s (CeMsg CmGetInternalData) = Some (s, Some (CrData m)).
