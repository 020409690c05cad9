(** Specification vocabulary for the sites of a Master: what the observations of
    a run say about one registration, and what its visitors should be told. *)
From Verif Require Import Model.Base Model.Defense Model.MCaptcha Model.Counter Model.Master
  Spec.CounterSpec Spec.MasterSpec.

(** What happened, with the observations it led to; latest first. *)
Notation mlog := (list (mevent * list mout)).
Fixpoint m_log (p : profile) (s : msys) (es : list mevent) (acc : mlog) : mlog :=
  match es with
  | [] => acc
  | e :: r =>
      match m_step p s e with
      | Some (s1, o) => m_log p s1 r ((e, o) :: acc)
      | None => acc
      end
  end.

Definition log_hist (l : mlog) : list mreq := l ≫= fun x => reverse (handled (snd x)).
Fixpoint log_time (t : N) (l : mlog) : N :=
  match l with
  | [] => t
  | (MeTick d, _) :: r => log_time t r + d
  | _ :: r => log_time t r
  end.
Fixpoint log_requests (l : mlog) : nat :=
  match l with
  | [] => 0
  | (MeReq _, _) :: r => S (log_requests r)
  | _ :: r => log_requests r
  end.

(** The registration that request [k], an AddVisitor, is for: the one its name
    stood for when it was made. *)
Fixpoint routed (l : mlog) (k : nat) : option nat :=
  match l with
  | [] => None
  | (MeReq (RqAddVisitor id), _) :: r =>
      if decide (k = log_requests r) then bound (log_hist r) id else routed r k
  | _ :: r => routed r k
  end.
(** An observation after [l] by which a visitor of registration [c] is told
    something. *)
Definition said (l : mlog) (c : nat) (o : mout) : option add_visitor_result :=
  match o with
  | MoReply k (MrVisit (Ok (Some v))) => if decide (routed l k = Some c) then Some v else None
  | MoDirect c' (CrAdded v) => if decide (c' = c) then Some v else None
  | _ => None
  end.
(** The visitors of registration [c], when they were counted and what they were
    told; oldest first. *)
Fixpoint visits (t : N) (c : nat) (l : mlog) : list (N * add_visitor_result) :=
  match l with
  | [] => []
  | (_, o) :: r => visits t c r ++ (pair (log_time t r) <$> omap (said r c) o)
  end.
(** Registration [c]: when, and with which data. *)
Fixpoint registered (t : N) (c : nat) (l : mlog) : option (N * mcaptcha) :=
  match l with
  | [] => None
  | (_, o) :: r =>
      match handled o with
      | [RqAddSite _ m] =>
          if decide (c = registrations (log_hist r)) then Some (log_time t r, m) else registered t c r
      | _ => registered t c r
      end
  end.
(** Saved data was written over registration [c]. *)
Fixpoint restored (c : nat) (l : mlog) : Prop :=
  match l with
  | [] => False
  | (e, o) :: r =>
      (exists d, e = MeDirect c (CmSetInternalData d)) \/
      (exists d id, RqSetData d ∈ handled o /\ is_Some (d !! id) /\ bound (log_hist r) id = Some c) \/
      restored c r
  end.

(** Visitors count when no departure is overdue. *)
Definition prompt (p : profile) (s0 : msys) (es : list mevent) (c : nat) : Prop :=
  forall es1 e es2 s1 tr1 s2 o x v id, es = es1 ++ e :: es2 ->
    m_run p s0 es1 = Some (s1, tr1) -> m_step p s1 e = Some (s2, o) ->
    x ∈ o -> said (m_log p s0 es1 []) c x = Some v -> m_step p s1 (MeFire c id) = None.

(** ** What visitors should be told *)
(** Arrival [k] is visitor number 1 + the earlier ones still within the window. *)
Definition window (secs now : N) (earlier : list N) : N :=
  count (filter (fun t => now < t + secs * NS) earlier).
Definition numbers (secs : N) (times : list N) : list N :=
  imap (fun k t => 1 + window secs t (take k times)) times.
(** From level [i], visitor number [n] moves the site up by one level when [n]
    exceeds the level's threshold, otherwise down by one. *)
Definition next_level (ls : list level) (i : nat) (n : N) : nat :=
  match ls !! i with
  | Some l => if visitor_threshold l <? n then Nat.min (i + 1) (length ls - 1) else (i - 1)%nat
  | None => i
  end.
Fixpoint climb (ls : list level) (i : nat) (ns : list N) : list (option N) :=
  match ns with
  | [] => []
  | n :: r => let j := next_level ls i n in (difficulty_factor <$> ls !! j) :: climb ls j r
  end.

(** The sites of a Master that started at time [t] and went through [es]. *)
Notation site_log p t gc es := (m_log p (m_start t gc) es []) (only parsing).
