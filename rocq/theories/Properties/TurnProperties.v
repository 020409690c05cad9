(** C113: how much service a call on an in-memory System needs. *)
From Coq Require Import ZifyBool ZifyN ZifyNat Lia.
From Verif Require Import Model.Base Model.Defense Model.MCaptcha Model.Counter Model.Master
  Model.HashCache Model.Queue Model.Pow Model.System
  Spec.CacheSpec Spec.QueueSpec Spec.SystemSpec Spec.ExecutorSpec Spec.TurnSpec
  Proofs.SystemProofs Proofs.TurnProofs Properties.SystemProperties.
From Verif Require Export Proofs.TurnTheorems.

(** ** C113 *)
(** A call is over after a bounded number of steps for it: its own, one of the Master's future, the dispatcher's while it
    waits for an answer, those of the runner that has its work. No scheduler is assumed. For verify_pow, all work
    passes a check and there are at least as many runners as callers; [b] bounds what is in the queue when it gets there. *)
Theorem C113_bounded : forall p l t gc wk ql es s tr n c b es2 s2 tr2,
  s_run p l (sys_start t gc wk ql) es = Some (s, tr) -> called tr n c -> s_run p l s es2 = Some (s2, tr2) ->
  match c with CVerifyPow _ _ => manageable l wk (tr ++ tr2) | _ => True end ->
  (queued s n -> (burden (sy_q s) <= b)%nat) -> burden_at_most p l b n s es2 ->
  (turns p l n s es2 <= turns_enough c b)%nat /\
  (turns p l n s es2 = turns_enough c b -> SoCancel n ∈ tr ++ tr2 \/ exists r, SoRet n r ∈ tr ++ tr2).
Proof. exact c113_bounded. Qed.
Print Assumptions C113_bounded.

(** There is always such a step, and it can be taken. *)
Theorem C113_step : forall p l t gc wk ql es s tr n c rnd,
  s_run p l (sys_start t gc wk ql) es = Some (s, tr) -> called tr n c -> SoCancel n ∉ tr -> (forall r, SoRet n r ∉ tr) ->
  ~ check_panicked tr -> match c with CVerifyPow _ _ => manageable l wk tr | _ => True end ->
  turn_for n s (next_turn rnd n s) = true /\ is_Some (s_step p l s (next_turn rnd n s)).
Proof. exact c113_step. Qed.
Print Assumptions C113_step.

(** So a call that is attended to returns, whatever the state. *)
Theorem C113_attended : forall p l t gc wk ql es s tr n c rnd b,
  s_run p l (sys_start t gc wk ql) es = Some (s, tr) -> called tr n c -> SoCancel n ∉ tr -> (forall r, SoRet n r ∉ tr) ->
  ~ check_panicked tr -> match c with CVerifyPow _ _ => manageable l wk tr | _ => True end ->
  (burden (sy_q s) <= b)%nat -> exists r, SoRet n r ∈ take_turns p l rnd n (turns_enough c b) s.
Proof. exact c113_attended. Qed.
Print Assumptions C113_attended.

(** The bound is reached: one runner, and before the call to verify "y" lies work in the dispatcher's inbox on which two
    verdicts will be sent. *)
Definition ex_before : list sevent :=
  [SeMaster (MeReq (RqAddSite "site" ex_site));
   SeCall (CGetPow "site"); SeAct 0 ""; SeMaster (MeTask 1); SeAct 0 "x"; SeAct 0 ""; SeAct 0 "";
   SeCall (CGetPow "site"); SeAct 1 ""; SeMaster (MeTask 2); SeAct 1 "y"; SeAct 1 ""; SeAct 1 "";
   SeCall (CVerifyPow (ex_work "x" "site" 40) "ip"); SeAct 2 ""; SeAct 2 "";
   SeCall (CVerifyPow (ex_work "y" "site" 60) "ip")].

Definition ex_during : list sevent :=
  [SeAct 3 ""; SeAct 3 ""; SeTick 5; SeManager; SeAct 2 ""; SeManager; SeAct 3 ""; SeRecv 0; SeSend 0; SeCall (CGetPow "site");
   SeSend 0; SeEnd 0; SeManager; SeRecv 0; SeSend 0; SeAct 3 "tok"; SeAct 3 ""; SeAct 3 ""].

Definition ex_returns (tr : list sout) : list (nat * ret) := omap (fun o => match o with SoRet n r => Some (n, r) | _ => None end) tr.

Definition ex_calls (tr : list sout) : list (nat * call) := omap (fun o => match o with SoCall n c => Some (n, c) | _ => None end) tr.

Fixpoint burden_ok (p : profile) (l : pow_lib) (b n : nat) (s : ssys) (es : list sevent) : bool :=
  match es with
  | [] => true
  | e :: r =>
      match e with
      | SeAct m _ => match sy_clients s !! n with Some (VpAdd _ _ _) => (burden (sy_q s) <=? b)%nat | _ => true end
      | _ => true
      end &&
      match s_step p l s e with Some (s', _) => burden_ok p l b n s' r | None => true end
  end.

Lemma burden_check p l b n es : forall s, burden_ok p l b n s es = true -> burden_at_most p l b n s es.
Proof.
  induction es as [|e es IH]; intros s H; [done|]. cbn [burden_ok burden_at_most] in *. apply andb_true_iff in H as [H1 H2]. split.
  - destruct e; try done. intros _ w ip c Hc. rewrite Hc in H1. by apply Nat.leb_le.
  - destruct (s_step p l s e) as [[s' o]|]; [by apply IH|done].
Qed.

Lemma ex_called t n c : called t n c <-> (n, c) ∈ ex_calls t.
Proof.
  unfold called, ex_calls. rewrite elem_of_list_omap. split.
  - intros Hx. by exists (SoCall n c).
  - intros ([] & Hx & Ex); try done. by injection Ex as -> ->.
Qed.

Example C113_witness : forall p, exists s tr s2 tr2,
  s_run p ex_lib ex_start ex_before = Some (s, tr) /\ s_run p ex_lib s ex_during = Some (s2, tr2) /\
  called tr 3 (CVerifyPow (ex_work "y" "site" 60) "ip") /\ SoCancel 3 ∉ tr /\ (forall r, SoRet 3 r ∉ tr) /\
  ~ check_panicked tr /\ manageable ex_lib 1 (tr ++ tr2) /\
  ~ queued s 3 /\ burden (sy_q s) = 1%nat /\ burden_at_most p ex_lib 1 3 s ex_during /\
  turns p ex_lib 3 s ex_during = turns_enough (CVerifyPow (ex_work "y" "site" 60) "ip") 1 /\
  ex_returns tr2 = [(3%nat, RVerifyPow (Ok ("tok"%string, 50)))] /\
  (** attended to alone, it takes that many steps and no fewer *)
  ex_returns (take_turns p ex_lib (fun _ => "tok"%string) 3 14 s) = [(3%nat, RVerifyPow (Ok ("tok"%string, 50)))] /\
  ex_returns (take_turns p ex_lib (fun _ => "tok"%string) 3 13 s) = [] /\
  turns_enough (CVerifyPow (ex_work "y" "site" 60) "ip") 1 = 14%nat.
Proof.
  intros p.
  assert (H : match s_run p ex_lib ex_start ex_before with
    | Some (s, tr) =>
        match s_run p ex_lib s ex_during with
        | Some (_, tr2) =>
            ex_calls tr = [(0%nat, CGetPow "site"); (1%nat, CGetPow "site"); (2%nat, CVerifyPow (ex_work "x" "site" 40) "ip");
                           (3%nat, CVerifyPow (ex_work "y" "site" 60) "ip")] /\
            ex_calls tr2 = [(4%nat, CGetPow "site")] /\ ex_returns tr = [(0%nat, RGetPow (Ok (Some (PoWConfig "x" 50 "salt"))));
              (1%nat, RGetPow (Ok (Some (PoWConfig "y" 50 "salt"))))] /\
            omap (fun o => match o with SoCancel n => Some n | _ => None end) tr = [] /\
            qtrace tr = [QeAdd "ip"] /\ callers (tr ++ tr2) = ["ip"%string] /\
            sy_clients s !! 3%nat = Some (VpStart (ex_work "y" "site" 60) "ip") /\ burden (sy_q s) = 1%nat /\
            turns p ex_lib 3 s ex_during = 14%nat /\ ex_returns tr2 = [(3%nat, RVerifyPow (Ok ("tok"%string, 50)))] /\
            ex_returns (take_turns p ex_lib (fun _ => "tok"%string) 3 14 s) = [(3%nat, RVerifyPow (Ok ("tok"%string, 50)))] /\
            ex_returns (take_turns p ex_lib (fun _ => "tok"%string) 3 13 s) = [] /\
            burden_ok p ex_lib 1 3 s ex_during = true
        | None => False
        end
    | None => False
    end) by (destruct p; vm_compute; repeat split).
  destruct (s_run p ex_lib ex_start ex_before) as [[s tr]|] eqn:Er; [|destruct H]. destruct (s_run _ _ s ex_during) as [[s2 tr2]|] eqn:E2; [|destruct H].
  destruct H as (H1 & H2 & H3 & H4 & H5 & H6 & H7 & H8 & H9 & H10 & H11 & H12 & H13).
  exists s, tr, s2, tr2. split; [reflexivity|]. split; [exact E2|]. clear Er E2.
  split; [apply ex_called; rewrite H1; do 3 right; left|]. split.
  { intros Hx. assert (3%nat ∈ omap (fun o => match o with SoCancel n => Some n | _ => None end) tr) as Hy.
    { apply elem_of_list_omap. by exists (SoCancel 3). } rewrite H4 in Hy. by apply elem_of_nil in Hy. }
  split.
  { intros r Hx. assert ((3%nat, r) ∈ ex_returns tr) as Hy by (apply elem_of_list_omap; by exists (SoRet 3 r)).
    rewrite H3, !elem_of_cons, elem_of_nil in Hy. destruct Hy as [Hy|[Hy|[]]]; discriminate. }
  split.
  { intros [r Hx]. rewrite H5, elem_of_cons, elem_of_nil in Hx. destruct Hx as [Hx|[]]; discriminate. }
  split.
  { split; [|rewrite H6; cbn; lia]. intros n w ip [Hx|Hx]%elem_of_app.
    + assert ((n, CVerifyPow w ip) ∈ ex_calls tr) as Hy by (by apply ex_called). rewrite H1 in Hy.
      rewrite !elem_of_cons, elem_of_nil in Hy. destruct Hy as [Hy|[Hy|[Hy|[Hy|[]]]]]; try discriminate; injection Hy as _ -> _; apply ex_decent.
    + assert ((n, CVerifyPow w ip) ∈ ex_calls tr2) as Hy by (by apply ex_called). rewrite H2 in Hy.
      rewrite !elem_of_cons, elem_of_nil in Hy. destruct Hy as [Hy|[]]. discriminate. }
  split.
  { intros (w & c & j & [Hx|Hx]); rewrite H7 in Hx; discriminate. }
  split; [exact H8|]. split; [by apply burden_check|]. split; [exact H9|]. split; [exact H10|]. split; [exact H11|].
  split; [exact H12|]. reflexivity.
Qed.
