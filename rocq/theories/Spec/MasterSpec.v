(** Specification vocabulary for the Master: what the sequence of handled
    messages means. *)
From Verif Require Import Model.Base Model.MCaptcha Model.Counter Model.Master.

Definition handled (tr : list mout) : list mreq :=
  omap (fun o => match o with MoHandle r => Some r | _ => None end) tr.

(** Number of registrations in a sequence of handled messages. *)
Definition registrations (h : list mreq) : nat :=
  length (omap (fun r => match r with RqAddSite id _ => Some id | _ => None end) h).

(** The registration (numbered from 0) found under a name after the messages
    of [h], latest first. *)
Fixpoint bound (h : list mreq) (id : string) : option nat :=
  match h with
  | [] => None
  | RqAddSite id' _ :: h' => if String.eqb id id' then Some (registrations h') else bound h' id
  | RqRename a b :: h' =>
      match bound h' a with
      | Some k => if String.eqb id b then Some k else if String.eqb id a then None else bound h' id
      | None => bound h' id
      end
  | RqRemove id' :: h' => if String.eqb id id' then None else bound h' id
  | _ :: h' => bound h' id
  end.

(** Was the site found under a name looked up since it got that name? *)
Fixpoint used (h : list mreq) (id : string) : bool :=
  match h with
  | [] => false
  | RqAddSite id' _ :: h' => if String.eqb id id' then false else used h' id
  | RqRename a b :: h' =>
      match bound h' a with
      | Some _ => if String.eqb id b || String.eqb id a then false else used h' id
      | None => used h' id
      end
  | RqRemove id' :: h' => if String.eqb id id' then false else used h' id
  | RqAddVisitor id' :: h' | RqGetSite id' :: h' =>
      match bound h' id with
      | Some _ => String.eqb id id' || used h' id
      | None => false
      end
  | RqSetData d :: h' =>
      match bound h' id with
      | Some _ => bool_decide (is_Some (d !! id)) || used h' id
      | None => false
      end
  | _ :: h' => used h' id
  end.

(** The answers given to request [k]. *)
Definition answers (k : nat) (tr : list mout) : list mreply :=
  omap (fun o => match o with
                 | MoReply k' x => if (k' =? k)%nat then Some x else None
                 | _ => None end) tr.

(** What a counter would answer now. *)
Definition alive_at (s : msys) (c : nat) : Prop := exists x, my_ctrs s !! c = Some x /\ ct_alive x = true.
Definition count_at (s : msys) (c : nat) (n : N) : Prop :=
  exists x, my_ctrs s !! c = Some x /\ ct_alive x = true /\ m_get_visitors (ct_data x) = n.
Definition data_at (s : msys) (c : nat) (m : mcaptcha) : Prop :=
  exists x, my_ctrs s !! c = Some x /\ ct_alive x = true /\ ct_data x = m.

(** A counter that no longer answers. *)
Definition dead_at (s : msys) (c : nat) : Prop := exists x, my_ctrs s !! c = Some x /\ ct_alive x = false.

(** The handled messages of a run, latest first. *)
Definition hist (tr : list mout) : list mreq := reverse (handled tr).

(** Messages that may make a name registered. *)
Definition rebinds (id : string) (r : mreq) : Prop :=
  match r with RqAddSite id' _ => id' = id | RqRename _ b => b = id | _ => False end.

(** What delivering AddVisitor does to a counter. *)
Definition counted (p : profile) (x x' : counter) (v : add_visitor_result) : Prop :=
  ct_alive x = true /\ ct_alive x' = true /\ add_visitor p (ct_data x) = Val (ct_data x') /\
  avr_new (ct_data x') = Val v.
Definition visit_outcome (p : profile) (x x' : counter) (a : mreply) : Prop :=
  (exists v, a = MrVisit (Ok (Some v)) /\ counted p x x' v) \/
  (a = MrVisit (Err MailboxError) /\ ct_alive x = false /\ x' = x) \/
  (a = MrVisit (Err MailboxError) /\ ct_alive x = true /\ ct_alive x' = false /\
   (olet m := add_visitor p (ct_data x) in olet r := avr_new m in Val (m, r)) = Panic).

(** Clients' requests for a cleanup among the events. *)
Definition asks_cleanup (e : mevent) : bool := match e with MeReq RqCleanUp => true | _ => false end.
Definition cleanups_asked (es : list mevent) : nat := length (List.filter asks_cleanup es).
