(** Specification vocabulary for a Master whose answers take time. *)
From Verif Require Import Model.Base Model.MCaptcha Model.Counter Model.Master Model.MasterDelay Spec.MasterSpec.

(** Without the answers. *)
Definition doings (tr : list mout) : list mout := List.filter (fun o => match o with MoReply _ _ => false | _ => true end) tr.
Definition plain_events (es : list dmevent) : list mevent := omap (fun e => match e with DmDo e => Some e | _ => None end) es.
(** What a counter, or its closed mailbox, can make of a request. *)
Definition of_counter (x : mreply) : Prop :=
  match x with
  | MrVisit (Ok (Some _)) | MrVisit (Err MailboxError) | MrUnit (Ok tt) | MrUnit (Err MailboxError) => True
  | _ => False
  end.
