(** Specification vocabulary for the System: what can be read off a trace of
    observations. *)
From Verif Require Import Model.Base Model.MCaptcha Model.Counter Model.Master Model.HashCache Model.Queue Model.Pow Model.System
  Spec.MasterSpec.

(** The client an observation belongs to, and the observations of one client. *)
Definition who (o : sout) : option nat :=
  match o with
  | SoCall n _ | SoRet n _ | SoCancel n => Some n
  | SoMaster w _ _ | SoCache w _ _ | SoQueue w _ _ => w
  end.
Definition of_client (n : nat) (tr : list sout) : list sout := filter (fun o => who o = Some n) tr.

(** What the cache, the master and the queue see. *)
Definition ctrace (tr : list sout) : list (cache_event * option cache_reply) :=
  omap (fun o => match o with SoCache _ e r => Some (e, r) | _ => None end) tr.
Definition mtrace (tr : list sout) : list mevent :=
  omap (fun o => match o with SoMaster _ e _ => Some e | _ => None end) tr.
Definition mouts (tr : list sout) : list mout :=
  concat (omap (fun o => match o with SoMaster _ _ os => Some os | _ => None end) tr).
Definition qtrace (tr : list sout) : list qevent :=
  omap (fun o => match o with SoQueue _ e _ => Some e | _ => None end) tr.
Definition qouts (tr : list sout) : list qout :=
  concat (omap (fun o => match o with SoQueue _ _ os => Some os | _ => None end) tr).

(** Requests sent to the master so far; request [k] is client [n]'s
    AddVisitor([id]); its answer is [x]. *)
Definition is_request (e : mevent) : bool := match e with MeReq _ => true | _ => false end.
Definition requests (es : list mevent) : nat := length (List.filter is_request es).
Definition asked (tr : list sout) (n : nat) (id : string) (k : nat) : Prop :=
  exists tr1 os tr2, tr = tr1 ++ SoMaster (Some n) (MeReq (RqAddVisitor id)) os :: tr2 /\
    k = requests (mtrace tr1).
Definition replied (tr : list sout) (k : nat) (x : mreply) : Prop := MoReply k x ∈ mouts tr.

(** Some proof check panicked. *)
Definition check_panicked (tr : list sout) : Prop := exists r, QePanic r ∈ qtrace tr.

(** The PoW library's judgement of submitted work. *)
Definition work_pow (w : work) : pow := PoW (w_result w) (w_nonce w).
Definition sufficient (l : pow_lib) (w : work) (d : N) (b : bool) : Prop :=
  is_sufficient_difficulty l (work_pow w) d = Val b.
Definition valid (l : pow_lib) (w : work) (b : bool) : Prop :=
  is_valid_proof l (work_pow w) (w_string w) = Val b.

(** Calls and returns. *)
Definition called (tr : list sout) (n : nat) (c : call) : Prop := SoCall n c ∈ tr.
Definition returned (tr : list sout) (n : nat) (r : ret) : Prop := SoRet n r ∈ tr.

(** Clients whose get_pow cached challenge [x], whose verify_pow took challenge
    [x] out of the cache, whose verify_pow minted token [t], whose validation
    of token [t] was answered true. *)
Definition issuers (x : string) (tr : list sout) : list nat :=
  omap (fun o => match o with
                 | SoCache (Some n) (HeMsg (HmCachePoW m)) _ => if decide (cp_string m = x) then Some n else None
                 | _ => None end) tr.
Definition consumers (x : string) (tr : list sout) : list nat :=
  omap (fun o => match o with
                 | SoCache (Some n) (HeMsg (HmRetrivePoW m)) (Some (HrPoW (Ok (Some _)))) =>
                     if decide (vr_token m = x) then Some n else None
                 | _ => None end) tr.
Definition minters (t : string) (tr : list sout) : list nat :=
  omap (fun o => match o with
                 | SoCache (Some n) (HeMsg (HmCacheResult m)) _ => if decide (cr_token m = t) then Some n else None
                 | _ => None end) tr.
Definition acceptors (t : string) (tr : list sout) : list nat :=
  omap (fun o => match o with
                 | SoCache (Some n) (HeMsg (HmVerifyCaptchaResult m)) (Some (HrBool (Ok true))) =>
                     if decide (vr_token m = t) then Some n else None
                 | _ => None end) tr.
(** Client [n]'s verify_pow of challenge [x] succeeded / validation of [t] with
    [key] was answered true. *)
Definition verified (tr : list sout) (n : nat) (x : string) : Prop :=
  exists w ip tok d, called tr n (CVerifyPow w ip) /\ w_string w = x /\ returned tr n (RVerifyPow (Ok (tok, d))).
Definition validated (tr : list sout) (n : nat) (t key : string) : Prop :=
  called tr n (CValidate (VerifyCaptchaResult t key)) /\ returned tr n (RValidate (Ok true)).

(** Between the request of a successful get_pow and its answer the counter
    registered under the name when the request was handled counts one visitor. *)
Definition visit_counted (p : profile) (l : pow_lib) (t gc : N) (wk : nat) (ql : N) (es : list sevent)
    (n : nat) (id : string) (v : add_visitor_result) : Prop :=
  exists es1 e1 es2 e2 es3 s1 s2 s3 s4 tr1 tr2 os o2 c x x',
    es = es1 ++ e1 :: es2 ++ e2 :: es3 /\
    s_run p l (sys_start t gc wk ql) es1 = Some (s1, tr1) /\
    s_step p l s1 e1 = Some (s2, [SoMaster (Some n) (MeReq (RqAddVisitor id)) os]) /\
    bound (hist (mouts tr1)) id = Some c /\
    s_run p l s2 es2 = Some (s3, tr2) /\ s_step p l s3 e2 = Some (s4, o2) /\
    my_ctrs (sy_m s3) !! c = Some x /\ my_ctrs (sy_m s4) = <[c := x']> (my_ctrs (sy_m s3)) /\
    counted p x x' v.

Definition last_of {A} (f : sb_set -> option A) (xs : list sb_set) : option A := last (omap f xs).
Definition set_master x := match x with SbMaster a => Some a | _ => None end.
Definition set_cache x := match x with SbCache a => Some a | _ => None end.
Definition set_pow x := match x with SbPow a => Some a | _ => None end.
Definition set_runners x := match x with SbRunners a => Some a | _ => None end.
Definition set_queue_length x := match x with SbQueueLength a => Some a | _ => None end.
