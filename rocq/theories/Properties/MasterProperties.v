(** C22-C31, C65: the Master actor, its counters and its cleanup task under
    every schedule. *)
From Coq Require Import ZifyBool ZifyN ZifyNat Lia.
From Verif Require Import Model.Base Model.Defense Model.MCaptcha Model.Counter Model.Master
  Spec.MCaptchaSpec Spec.CounterSpec Spec.MasterSpec
  Proofs.MasterProofs Proofs.MasterTasks Proofs.MasterAnswers
  Properties.DefenseProperties Properties.MCaptchaProperties.
From Verif Require Export Proofs.MasterTheorems.

(** ** C22 *)
Theorem C22_registry : forall p t gc es s tr id,
  m_run p (m_start t gc) es = Some (s, tr) -> my_alive s = true ->
  exists s', m_step p s (MeReq (RqGetSite id)) =
    Some (s', [MoHandle (RqGetSite id); MoReply (my_reqs s) (MrSite (bound (hist tr) id))]).
Proof. exact c22_registry. Qed.
Print Assumptions C22_registry.

(** A registration starts a new counter with exactly the given data, which no
    name referred to before. *)
Theorem C22_registration : forall p t gc es s tr id m,
  m_run p (m_start t gc) es = Some (s, tr) -> my_alive s = true ->
  exists s' c, m_step p s (MeReq (RqAddSite id m)) =
      Some (s', [MoHandle (RqAddSite id m); MoReply (my_reqs s) (MrUnit (Ok tt))]) /\
    bound (RqAddSite id m :: hist tr) id = Some c /\ data_at s' c m /\
    (forall id', bound (hist tr) id' <> Some c) /\
    (forall c' x, my_ctrs s !! c' = Some x -> c' <> c /\ my_ctrs s' !! c' = Some x).
Proof. exact c22_registration. Qed.
Print Assumptions C22_registration.

(** Names with two renames, a replacement and a removal. *)
Definition ex_names : list mevent :=
  [MeReq (RqAddSite "a" ex_m3); MeReq (RqAddSite "b" ex_m3); MeReq (RqRename "a" "b");
   MeReq (RqRename "zz" "b"); MeReq (RqAddSite "c" ex_m3); MeReq (RqRename "c" "d");
   MeReq (RqRemove "d"); MeReq (RqAddSite "d" ex_m3)].

Example C22_witness : forall p, exists s tr,
  m_run p (m_start 0 60) ex_names = Some (s, tr) /\ my_alive s = true /\
  bound (hist tr) "a" = None /\ bound (hist tr) "b" = Some 0%nat /\ bound (hist tr) "c" = None /\
  bound (hist tr) "d" = Some 3%nat.
Proof. intros p. eexists _, _. split; [by destruct p; vm_compute|]. done. Qed.

(** ** C23 *)
Theorem C23_unregistered : forall p t gc es s tr id,
  m_run p (m_start t gc) es = Some (s, tr) -> my_alive s = true -> bound (hist tr) id = None ->
  exists s', m_step p s (MeReq (RqAddVisitor id)) =
      Some (s', [MoHandle (RqAddVisitor id); MoReply (my_reqs s) (MrVisit (Ok None))]) /\
    my_ctrs s' = my_ctrs s /\ my_sites s' = my_sites s.
Proof. exact c23_unregistered. Qed.
Print Assumptions C23_unregistered.

Theorem C23_registered : forall p t gc es s tr id c,
  m_run p (m_start t gc) es = Some (s, tr) -> my_alive s = true -> bound (hist tr) id = Some c ->
  exists s1, m_step p s (MeReq (RqAddVisitor id)) = Some (s1, [MoHandle (RqAddVisitor id)]) /\
    my_ctrs s1 = my_ctrs s /\
    forall es2 s2 tr2, m_run p s1 es2 = Some (s2, tr2) ->
      let k := my_reqs s in
      let d := MeTask (my_next s) in
      (** still pending, and can be delivered *)
      (answers k tr2 = [] /\ d ∉ es2 /\ my_alive s2 = true /\ is_Some (m_step p s2 d)) \/
      (** the master died first *)
      (answers k tr2 = [MrDropped] /\ d ∉ es2 /\ my_alive s2 = false) \/
      (** delivered once, to that counter and no other *)
      (exists es3 es4 s3 tr3 s4 o4 x x' a,
         es2 = es3 ++ d :: es4 /\ d ∉ es3 /\ d ∉ es4 /\
         m_run p s1 es3 = Some (s3, tr3) /\ m_step p s3 d = Some (s4, o4) /\
         my_ctrs s3 !! c = Some x /\ my_ctrs s4 = <[c := x']> (my_ctrs s3) /\ my_sites s4 = my_sites s3 /\
         visit_outcome p x x' a /\ answers k tr2 = [a]).
Proof. exact c23_registered. Qed.
Print Assumptions C23_registered.

Definition ex_visits : list mevent :=
  [MeReq (RqAddSite "a" ex_m3); MeReq (RqAddSite "b" ex_m3); MeReq (RqAddVisitor "b"); MeReq (RqRename "b" "a")].

(** The visitor of "b" is counted although the name is taken away meanwhile. *)
Example C23_witness : forall p, exists s tr s1 tr1,
  m_run p (m_start 0 60) (take 2 ex_visits) = Some (s, tr) /\ my_alive s = true /\
  bound (hist tr) "b" = Some 1%nat /\ bound (hist tr) "q" = None /\
  m_run p s (drop 2 ex_visits ++ [MeTask (my_next s)]) = Some (s1, tr1) /\
  answers (my_reqs s) tr1 = [MrVisit (Ok (Some (AddVisitorResult 30 10)))] /\
  count_at s1 1 1 /\ count_at s1 0 0.
Proof.
  intros p. eexists _, _, _, _. split; [by destruct p; vm_compute|]. split; [done|]. split; [done|]. split; [done|].
  split; [by destruct p; vm_compute|]. split; [by vm_compute|]. split; eexists; by vm_compute.
Qed.

(** ** C24 *)
Theorem C24_undisturbed_cleanup : forall p t gc es s tr w due,
  m_run p (m_start t gc) es = Some (s, tr) -> my_alive s = true ->
  my_tasks s !! w = Some (TWake due) -> due <= my_now s ->
  (forall id c, bound (hist tr) id = Some c -> alive_at s c) ->
  let g := my_next s in
  exists n s' tr', m_run p s (MeTask w :: replicate n (MeTask g)) = Some (s', tr') /\
    (** the pass has ended and sleeps for the next one *)
    my_alive s' = true /\ my_tasks s' !! g = Some (TWake (my_now s + my_gc s * NS)) /\
    (** idle, used sites are gone and their counters stopped *)
    (forall id c, bound (hist tr) id = Some c -> used (hist tr) id = true -> count_at s c 0 ->
       bound (hist (tr ++ tr')) id = None /\ dead_at s' c) /\
    (** every other site keeps its counter and flag, and the counter its state *)
    (forall id c, bound (hist tr) id = Some c -> used (hist tr) id = false \/ ~ count_at s c 0 ->
       bound (hist (tr ++ tr')) id = Some c /\ used (hist (tr ++ tr')) id = used (hist tr) id /\
       my_ctrs s' !! c = my_ctrs s !! c) /\
    (forall id, bound (hist tr) id = None -> bound (hist (tr ++ tr')) id = None) /\
    (forall c, (forall id, bound (hist tr) id <> Some c) -> my_ctrs s' !! c = my_ctrs s !! c) /\
    (forall k, answers k tr' = []).
Proof. exact c24_undisturbed_cleanup. Qed.
Print Assumptions C24_undisturbed_cleanup.

(** In any run, whatever the cleanup task removes by a name had, when the pass
    began, a registration under that name which had been looked up, and that
    registration's counter had zero visitors when inspected during the pass. *)
Theorem C24_collects_only_inspected_idle : forall p t0 gc es s tr w s' o id,
  m_run p (m_start t0 gc) es = Some (s, tr) ->
  m_step p s (MeTask w) = Some (s', o) -> MoHandle (RqRemove id) ∈ o ->
  exists es0 e0 es1 es2 s0 tr0 s0' o0 s1 tr1 c,
    es = es0 ++ e0 :: es1 ++ MeTask w :: es2 /\
    (** the pass begins *)
    m_run p (m_start t0 gc) es0 = Some (s0, tr0) /\ m_step p s0 e0 = Some (s0', o0) /\ MoHandle RqCleanUp ∈ o0 /\
    bound (hist tr0) id = Some c /\ used (hist tr0) id = true /\
    (** and comes to look at the counter *)
    m_run p s0' es1 = Some (s1, tr1) /\ count_at s1 c 0 /\ w = my_next s0.
Proof. exact c24_collects_only_inspected_idle. Qed.
Print Assumptions C24_collects_only_inspected_idle.

(** Three sites: "a" used and idle, "b" used with a visitor, "c" never used. *)
Definition ex_three : list mevent :=
  [MeReq (RqAddSite "a" ex_m3); MeReq (RqAddSite "b" ex_m3); MeReq (RqAddSite "c" ex_m3);
   MeReq (RqGetSite "a"); MeReq (RqAddVisitor "b"); MeTask 1].

Example C24_witness : forall p, exists s tr s' tr',
  m_run p (m_start 0 60) ex_three = Some (s, tr) /\ my_alive s = true /\
  my_tasks s !! 0%nat = Some (TWake 0) /\
  (forall id c, bound (hist tr) id = Some c -> alive_at s c) /\
  used (hist tr) "a" = true /\ count_at s 0 0 /\ used (hist tr) "b" = true /\ count_at s 1 1 /\
  used (hist tr) "c" = false /\ count_at s 2 0 /\
  m_run p s (MeTask 0 :: replicate 6 (MeTask (my_next s))) = Some (s', tr') /\
  bound (hist (tr ++ tr')) "a" = None /\ dead_at s' 0 /\
  bound (hist (tr ++ tr')) "b" = Some 1%nat /\ count_at s' 1 1 /\
  bound (hist (tr ++ tr')) "c" = Some 2%nat /\ count_at s' 2 0 /\
  my_tasks s' !! my_next s = Some (TWake (60 * NS)).
Proof.
  intros p. eexists _, _, _, _. split; [by destruct p; vm_compute|]. split; [done|]. split; [done|].
  split.
  { intros id c Hb. apply bound_lt in Hb as Hlt. vm_compute in Hlt.
    do 3 (destruct c as [|c]; [eexists; by vm_compute|]). lia. }
  split; [done|]. split; [by eexists; vm_compute|]. split; [done|]. split; [by eexists; vm_compute|].
  split; [done|]. split; [by eexists; vm_compute|]. split; [by destruct p; vm_compute|].
  split; [done|]. split; [by eexists; vm_compute|]. split; [done|]. split; [by eexists; vm_compute|].
  split; [done|]. split; [by eexists; vm_compute|]. by vm_compute.
Qed.

(** ** C25: a visitor is lost to the cleanup task *)

Theorem C25_visitor_dropped_refuted :
  (** mechanism: once the cleanup task has read zero, the site and its counter
      go, however many visitors it has by then *)
  (forall p s w id c rest n,
     my_alive s = true -> my_tasks s !! w = Some (TClean ((id, Site true c) :: rest) PStop) ->
     count_at s c n ->
     exists s' tr', m_run p s [MeTask w; MeTask w] = Some (s', tr') /\
       my_sites s' = delete id (my_sites s) /\ dead_at s' c) /\
  (** it happens: a visitor is accepted, no time passes, and the site is gone *)
  (forall p, exists es s tr,
     m_run p (m_start 0 60) es = Some (s, tr) /\
     es = [MeReq (RqAddSite "a" ex_m3); MeReq (RqGetSite "a"); MeTask 0; MeReq (RqAddVisitor "a");
           MeTask 1; MeTask 2; MeTask 1; MeTask 1; MeReq (RqAddVisitor "a")] /\
     answers 2 tr = [MrVisit (Ok (Some (AddVisitorResult 30 10)))] /\ dead_at s 0 /\
     answers 3 tr = [MrVisit (Ok None)]).
Proof. exact c25_visitor_dropped_refuted. Qed.
Print Assumptions C25_visitor_dropped_refuted.

(** ** C26: the cleanup task removes a registration it never inspected *)
Theorem C26_reregistration_removed_refuted :
  (forall p s w id c rest m n,
     my_alive s = true -> my_tasks s !! w = Some (TClean ((id, Site true c) :: rest) PStop) ->
     count_at s c n ->
     exists s' tr', m_run p s [MeReq (RqAddSite id m); MeTask w; MeTask w] = Some (s', tr') /\
       answers (my_reqs s) tr' = [MrUnit (Ok tt)] /\ my_sites s' !! id = None /\
       data_at s' (length (my_ctrs s)) m /\
       exists s'' tr'', m_run p s' [MeReq (RqAddVisitor id)] = Some (s'', tr'') /\
         answers (my_reqs s') tr'' = [MrVisit (Ok None)]) /\
  (forall p, exists es s tr,
     m_run p (m_start 0 60) es = Some (s, tr) /\
     es = [MeReq (RqAddSite "a" ex_m3); MeReq (RqGetSite "a"); MeTask 0; MeTask 1;
           MeReq (RqAddSite "a" ex_m3); MeTask 1; MeTask 1; MeReq (RqAddVisitor "a")] /\
     answers 2 tr = [MrUnit (Ok tt)] /\ answers 3 tr = [MrVisit (Ok None)]).
Proof. exact c26_reregistration_removed_refuted. Qed.
Print Assumptions C26_reregistration_removed_refuted.

(** ** C27: a rename during a pass leaves a listed site with a stopped counter *)
Theorem C27_rename_dead_refuted :
  (forall p t gc es s tr w id id2 rd c rest n,
     m_run p (m_start t gc) es = Some (s, tr) -> my_alive s = true ->
     my_tasks s !! w = Some (TClean ((id, Site true c) :: rest) PStop) ->
     my_sites s !! id = Some (Site rd c) -> count_at s c n -> id2 <> id ->
     exists s' tr', m_run p s [MeReq (RqRename id id2); MeTask w; MeTask w; MeReq (RqGetSite id2);
                               MeReq (RqAddVisitor id2); MeTask (my_next s)] = Some (s', tr') /\
       answers (my_reqs s) tr' = [MrUnit (Ok tt)] /\
       answers (S (my_reqs s)) tr' = [MrSite (Some c)] /\
       answers (S (S (my_reqs s))) tr' = [MrVisit (Err MailboxError)]) /\
  (forall p, exists es s tr,
     m_run p (m_start 0 60) es = Some (s, tr) /\
     es = [MeReq (RqAddSite "a" ex_m3); MeReq (RqGetSite "a"); MeTask 0; MeTask 1;
           MeReq (RqRename "a" "b"); MeTask 1; MeTask 1; MeReq (RqGetSite "b");
           MeReq (RqAddVisitor "b"); MeTask 2] /\
     answers 3 tr = [MrSite (Some 0%nat)] /\ answers 4 tr = [MrVisit (Err MailboxError)]).
Proof. exact c27_rename_dead_refuted. Qed.
Print Assumptions C27_rename_dead_refuted.

(** ** C28: a removal during a pass kills the master *)

Theorem C28_concurrent_removal_refuted :
  (forall p t gc es s tr w id x rest rd,
     m_run p (m_start t gc) es = Some (s, tr) -> my_alive s = true ->
     my_tasks s !! w = Some (TClean ((id, x) :: rest) PCount) ->
     my_sites s !! id = Some (Site rd (si_ctr x)) -> alive_at s (si_ctr x) ->
     exists s' tr', m_run p s [MeReq (RqRemove id); MeTask (my_next s); MeTask w] = Some (s', tr') /\
       answers (my_reqs s) tr' = [MrUnit (Ok tt)] /\
       forall es s'' tr'' r, m_run p s' es = Some (s'', tr'') ->
         exists s3, m_step p s'' (MeReq r) = Some (s3, [MoReply (my_reqs s'') MrClosed])) /\
  (** it happens: while the pass waits for site "a", site "b" is removed *)
  (forall p, exists es s tr,
     m_run p (m_start 0 60) es = Some (s, tr) /\
     es = [MeReq (RqAddSite "a" ex_m3); MeReq (RqAddSite "b" ex_m3); MeTask 0; MeReq (RqRemove "b"); MeTask 1;
           MeTask 2; MeTask 1; MeReq (RqAddSite "c" ex_m3)] /\
     answers 2 tr = [MrUnit (Ok tt)] /\ answers 3 tr = [MrClosed]) /\
  (** and: the pass has asked for the visitors of a used, idle site, which is
      removed before the pass stops it *)
  (forall p, exists es s tr,
     m_run p (m_start 0 60) es = Some (s, tr) /\
     es = [MeReq (RqAddSite "a" ex_m3); MeReq (RqGetSite "a"); MeTask 0; MeReq (RqRemove "a"); MeTask 1;
           MeTask 2; MeTask 1; MeReq (RqAddSite "c" ex_m3)] /\
     answers 2 tr = [MrUnit (Ok tt)] /\ answers 3 tr = [MrClosed]).
Proof. exact c28_concurrent_removal_refuted. Qed.
Print Assumptions C28_concurrent_removal_refuted.

(** ** C29 *)
Theorem C29_snapshot_exact : forall p t gc es s tr,
  m_run p (m_start t gc) es = Some (s, tr) -> my_alive s = true ->
  exists n s' d,
    m_run p s (MeReq RqGetData :: replicate n (MeTask (my_next s))) =
      Some (s', [MoHandle RqGetData; MoReply (my_reqs s) (MrData d)]) /\
    (forall id m, d !! id = Some m <-> exists c, bound (hist tr) id = Some c /\ data_at s c m) /\
    my_sites s' = my_sites s /\ my_ctrs s' = my_ctrs s /\ my_tasks s' = my_tasks s /\
    my_now s' = my_now s /\ my_alive s' = true.
Proof. exact c29_snapshot_exact. Qed.
Print Assumptions C29_snapshot_exact.

(** "a" is stopped (through its address), "b" has one visitor. *)
Example C29_witness : forall p, exists s tr s' d,
  m_run p (m_start 0 60) (ex_three ++ [MeDirect 0 CmStop]) = Some (s, tr) /\ my_alive s = true /\
  m_run p s (MeReq RqGetData :: replicate 4 (MeTask (my_next s))) =
    Some (s', [MoHandle RqGetData; MoReply (my_reqs s) (MrData d)]) /\
  d !! "a" = None /\ d !! "b" = Some (MCaptcha 1 example3 30) /\ d !! "c" = Some ex_m3.
Proof.
  intros p. eexists _, _, _, _. split; [by destruct p; vm_compute|]. split; [done|].
  split; [by destruct p; vm_compute|]. split; [by vm_compute|]. split; by vm_compute.
Qed.

(** ** C30 *)
Theorem C30_restore_installs : forall p t gc es s tr d order,
  m_run p (m_start t gc) es = Some (s, tr) -> my_alive s = true ->
  order ≡ₚ seq 0 (size d) ->
  exists s' tr',
    m_run p s (MeReq (RqSetData d) :: ((fun i => MeTask (my_next s + i)%nat) <$> order)) = Some (s', tr') /\
    answers (my_reqs s) tr' = [MrUnit (Ok tt)] /\
    let h := hist tr in
    let h' := hist (tr ++ tr') in
    (forall id m, d !! id = Some m ->
       exists c, bound h' id = Some c /\
         (bound h id = None \/ (bound h id = Some c /\ alive_at s c) -> data_at s' c m) /\
         (forall c0, bound h id = Some c0 -> c = c0)) /\
    (forall id, d !! id = None -> bound h' id = bound h id /\ used h' id = used h id /\
       forall c, bound h id = Some c -> my_ctrs s' !! c = my_ctrs s !! c).
Proof. exact c30_restore_installs. Qed.
Print Assumptions C30_restore_installs.

(** Restoring "b" (known) and "z" (new) in the reverse order of spawning; "a"
    and "c" are not listed. *)
Definition ex_restore : gmap string mcaptcha := {[ "b" := MCaptcha 7 example3 9; "z" := MCaptcha 5 example3 8 ]}.

Example C30_witness : forall p, exists s tr s' tr',
  m_run p (m_start 0 60) ex_three = Some (s, tr) /\ my_alive s = true /\
  [1; 0]%nat ≡ₚ seq 0 (size ex_restore) /\
  m_run p s (MeReq (RqSetData ex_restore) :: ((fun i => MeTask (my_next s + i)%nat) <$> [1; 0]%nat)) = Some (s', tr') /\
  bound (hist (tr ++ tr')) "b" = Some 1%nat /\ data_at s' 1 (MCaptcha 7 example3 9) /\
  bound (hist (tr ++ tr')) "z" = Some 3%nat /\ data_at s' 3 (MCaptcha 5 example3 8) /\
  bound (hist (tr ++ tr')) "a" = Some 0%nat /\ data_at s' 0 ex_m3.
Proof.
  intros p. eexists _, _, _, _. split; [by destruct p; vm_compute|]. split; [done|].
  split; [by vm_compute; constructor|]. split; [by destruct p; vm_compute|].
  split; [by vm_compute|]. split; [by eexists; vm_compute|]. split; [by vm_compute|].
  split; [by eexists; vm_compute|]. split; [by vm_compute|]. by eexists; vm_compute.
Qed.

(** ** C31 *)
Theorem C31_stays_unregistered : forall p t gc es s tr id s1 o1 es2 s2 tr2,
  m_run p (m_start t gc) es = Some (s, tr) -> my_alive s = true ->
  m_step p s (MeReq (RqRemove id)) = Some (s1, o1) ->
  m_run p s1 es2 = Some (s2, tr2) -> my_alive s2 = true ->
  Forall (fun r => ~ rebinds id r) (handled tr2) ->
  exists s3, m_step p s2 (MeReq (RqAddVisitor id)) =
    Some (s3, [MoHandle (RqAddVisitor id); MoReply (my_reqs s2) (MrVisit (Ok None))]).
Proof. exact c31_stays_unregistered. Qed.
Print Assumptions C31_stays_unregistered.

Theorem C31_stops_counter : forall p t gc es s tr id c s1 o1,
  m_run p (m_start t gc) es = Some (s, tr) -> my_alive s = true -> bound (hist tr) id = Some c ->
  m_step p s (MeReq (RqRemove id)) = Some (s1, o1) ->
  o1 = [MoHandle (RqRemove id)] /\
  forall es2 s2 tr2, m_run p s1 es2 = Some (s2, tr2) ->
    (** the stop message can be delivered until it is (or the master dies); from
        then on the counter never answers again; the removal is answered by then,
        with an error exactly if the counter had stopped before *)
    (MeTask (my_next s) ∈ es2 -> dead_at s2 c /\
       exists es3 es4 s3 tr3, es2 = es3 ++ MeTask (my_next s) :: es4 /\ m_run p s1 es3 = Some (s3, tr3) /\
         ((alive_at s3 c /\ answers (my_reqs s) tr2 = [MrUnit (Ok tt)]) \/
          (dead_at s3 c /\ answers (my_reqs s) tr2 = [MrUnit (Err MailboxError)]))) /\
    (MeTask (my_next s) ∉ es2 -> my_alive s2 = true -> is_Some (m_step p s2 (MeTask (my_next s)))).
Proof. exact c31_stops_counter. Qed.
Print Assumptions C31_stops_counter.

Theorem C31_local : forall p t gc es s tr id s1 o1,
  m_run p (m_start t gc) es = Some (s, tr) -> my_alive s = true ->
  m_step p s (MeReq (RqRemove id)) = Some (s1, o1) ->
  my_ctrs s1 = my_ctrs s /\
  (forall id', id' <> id -> my_sites s1 !! id' = my_sites s !! id') /\
  (bound (hist tr) id = None -> my_sites s1 = my_sites s /\ my_tasks s1 = my_tasks s /\
     o1 = [MoHandle (RqRemove id); MoReply (my_reqs s) (MrUnit (Ok tt))]).
Proof. exact c31_local. Qed.
Print Assumptions C31_local.

Example C31_witness : forall p, exists s tr s1 o1 s2 tr2,
  m_run p (m_start 0 60) ex_three = Some (s, tr) /\ my_alive s = true /\
  bound (hist tr) "b" = Some 1%nat /\ bound (hist tr) "q" = None /\
  m_step p s (MeReq (RqRemove "b")) = Some (s1, o1) /\
  m_run p s1 [MeReq (RqAddSite "q" ex_m3); MeTask (my_next s)] = Some (s2, tr2) /\ my_alive s2 = true /\
  Forall (fun r => ~ rebinds "b" r) (handled tr2) /\ dead_at s2 1.
Proof.
  intros p. eexists _, _, _, _, _, _. split; [by destruct p; vm_compute|]. split; [done|]. split; [done|].
  split; [done|]. split; [by destruct p; vm_compute|]. split; [by destruct p; vm_compute|]. split; [done|].
  split; [by vm_compute; repeat constructor|by eexists; vm_compute].
Qed.

(** ** C65: one stopped counter takes the master down *)
Theorem C65_dead_counter_kills_master_refuted :
  (** any registered counter that has stopped is found by the next pass, which
      then unwinds the master: no message is ever answered again *)
  (forall p t gc es s tr w due id c,
     m_run p (m_start t gc) es = Some (s, tr) -> my_alive s = true ->
     my_tasks s !! w = Some (TWake due) -> due <= my_now s ->
     bound (hist tr) id = Some c -> dead_at s c ->
     exists n s' tr', m_run p s (MeTask w :: replicate n (MeTask (my_next s))) = Some (s', tr') /\
       forall es2 s2 tr2 r, m_run p s' es2 = Some (s2, tr2) ->
         exists s3, m_step p s2 (MeReq r) = Some (s3, [MoReply (my_reqs s2) MrClosed])) /\
  (** it happens: a client that looked up a site sends its counter Stop *)
  (forall p, exists es s tr,
     m_run p (m_start 0 60) es = Some (s, tr) /\
     es = [MeReq (RqAddSite "a" ex_m3); MeReq (RqAddSite "b" ex_m3); MeReq (RqGetSite "a");
           MeDirect 0 CmStop; MeTask 0; MeTask 1; MeReq (RqAddVisitor "b")] /\
     answers 3 tr = [MrClosed]) /\
  (** and: a site whose MCaptcha has an empty ladder (possible through
      SetInternalData or deserialisation) kills its counter at the first visit *)
  (forall p, exists es s tr,
     m_run p (m_start 0 60) es = Some (s, tr) /\
     es = [MeReq (RqAddSite "a" (MCaptcha 0 (Defense [] 0) 30)); MeReq (RqAddSite "b" ex_m3);
           MeReq (RqAddVisitor "a"); MeTask 1; MeTask 0; MeTask 2; MeReq (RqAddVisitor "b")] /\
     answers 2 tr = [MrVisit (Err MailboxError)] /\ answers 3 tr = [MrClosed]).
Proof. exact c65_dead_counter_kills_master_refuted. Qed.
Print Assumptions C65_dead_counter_kills_master_refuted.

(** Nothing else kills the master. *)
Theorem C65_only_cause : forall p t gc es s tr e s' o,
  m_run p (m_start t gc) es = Some (s, tr) -> my_alive s = true ->
  m_step p s e = Some (s', o) -> my_alive s' = false ->
  exists w id x rest ph, e = MeTask w /\ my_tasks s !! w = Some (TClean ((id, x) :: rest) ph) /\
    dead_at s (si_ctr x) /\
    (** found registered when the pass began *)
    exists es0 e0 es1 s0 tr0 s0' o0, es = es0 ++ e0 :: es1 /\ m_run p (m_start t gc) es0 = Some (s0, tr0) /\
      m_step p s0 e0 = Some (s0', o0) /\ MoHandle RqCleanUp ∈ o0 /\ w = my_next s0 /\
      bound (hist tr0) id = Some (si_ctr x).
Proof. exact c65_only_cause. Qed.
Print Assumptions C65_only_cause.

(** The step that kills it in the first run above. *)
Example C65_witness : forall p, exists s tr s' o,
  m_run p (m_start 0 60) [MeReq (RqAddSite "a" ex_m3); MeReq (RqAddSite "b" ex_m3); MeReq (RqGetSite "a");
    MeDirect 0 CmStop; MeTask 0] = Some (s, tr) /\ my_alive s = true /\
  m_step p s (MeTask 1) = Some (s', o) /\ my_alive s' = false.
Proof.
  intros p. eexists _, _, _, _. split; [by destruct p; vm_compute|]. split; [by vm_compute|].
  split; [by destruct p; vm_compute|]. by vm_compute.
Qed.

(** ** C75: every request is answered exactly once *)
Theorem C75_answered_once : forall p t gc es s tr k,
  m_run p (m_start t gc) es = Some (s, tr) ->
  (** never more than one answer, none before the request *)
  (length (answers k tr) <= 1)%nat /\ ((my_reqs s <= k)%nat -> answers k tr = []) /\
  (** a request without answer is being worked on: one task, run alone, answers it *)
  ((k < my_reqs s)%nat -> answers k tr = [] ->
     my_alive s = true /\
     exists w n s' tr', m_run p s (replicate n (MeTask w)) = Some (s', tr') /\ length (answers k tr') = 1%nat).
Proof. exact c75_answered_once. Qed.
Print Assumptions C75_answered_once.

(** Requests that need no counter are answered at once, and a closed master
    answers every request at once. *)
Theorem C75_immediate : forall p t gc es s tr r,
  m_run p (m_start t gc) es = Some (s, tr) ->
  exists s' o, m_step p s (MeReq r) = Some (s', o) /\ my_reqs s' = S (my_reqs s) /\
    (my_alive s = false -> answers (my_reqs s) o = [MrClosed]) /\
    (my_alive s = true ->
     match r with
     | RqAddSite _ _ | RqRename _ _ | RqSetData _ | RqCleanUp => answers (my_reqs s) o = [MrUnit (Ok tt)]
     | RqGetSite id => answers (my_reqs s) o = [MrSite (bound (hist tr) id)]
     | RqRemove id => answers (my_reqs s) o = if bound (hist tr) id then [] else [MrUnit (Ok tt)]
     | RqAddVisitor id => answers (my_reqs s) o = if bound (hist tr) id then [] else [MrVisit (Ok None)]
     | RqGetData => answers (my_reqs s) o = []
     end).
Proof. exact c75_immediate. Qed.
Print Assumptions C75_immediate.

(** Two requests in flight at once: the later one is answered first, each once. *)
Example C75_witness : forall p, exists s tr,
  m_run p (m_start 0 60)
    [MeReq (RqAddSite "a" ex_m3); MeReq (RqAddVisitor "a"); MeReq RqGetData; MeTask 2; MeTask 2; MeTask 1]
    = Some (s, tr) /\
  length (answers 1 tr) = 1%nat /\ length (answers 2 tr) = 1%nat /\ answers 3 tr = [].
Proof. intros p. eexists _, _. split; [by destruct p; vm_compute|]. by destruct p; vm_compute. Qed.
