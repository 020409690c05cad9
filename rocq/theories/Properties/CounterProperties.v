(** C16-C21: the Counter actor under every schedule. *)
From Coq Require Import ZifyBool ZifyN ZifyNat Lia.
From Verif Require Import Model.Base Model.Defense Model.MCaptcha Model.Counter
  Spec.DefenseSpec Spec.MCaptchaSpec Spec.CounterSpec
  Proofs.DefenseProofs Proofs.MCaptchaProofs Proofs.CounterProofs
  Properties.DefenseProperties Properties.MCaptchaProperties.
From Verif Require Export Proofs.CounterTheorems.

(** ** C16 *)
Theorem C16_window : forall p t0 m es s os,
  built_mcaptcha p m -> visits_only es ->
  counter_run p (CounterSys t0 (counter_start m)) es = Some (s, os) ->
  count (arrivals_of 0 t0 es) <= u32_max ->
  exists n, reads_count p s n /\
    n = count (unexpired es (arrivals_of 0 t0 es)) /\
    count (young (clock t0 es) (m_duration m) (arrivals_of 0 t0 es)) <= n /\
    (no_overdue p s -> n = count (young (clock t0 es) (m_duration m) (arrivals_of 0 t0 es))).
Proof. exact c16_window. Qed.
Print Assumptions C16_window.

Definition sec : N := NS.

(** Three arrivals at 0s, 10s and 35s with duration 30s; the first expiry is
    delivered at 35s (late), the second is overdue at 45s. *)
Definition ex_schedule : list counter_event :=
  [CeMsg CmAddVisitor; CeTick (10 * sec); CeMsg CmAddVisitor; CeTick (25 * sec);
   CeMsg CmAddVisitor; CeFire 0; CeTick (10 * sec)].

Example C16_witness : forall p, exists s os,
  visits_only ex_schedule /\
  counter_run p (CounterSys 0 (counter_start ex_m3)) ex_schedule = Some (s, os) /\
  reads_count p s 2 /\ (exists x, counter_step p s (CeFire 1) = Some x) /\
  count (young (clock 0 ex_schedule) 30 (arrivals_of 0 0 ex_schedule)) = 1 /\
  exists s' os', counter_run p s [CeFire 1] = Some (s', os') /\ reads_count p s' 1 /\ no_overdue p s'.
Proof.
  intros p. eexists _, _. split; [by repeat constructor|].
  split; [by destruct p; vm_compute|]. split; [by destruct p; vm_compute|].
  split; [destruct p; vm_compute; eauto|]. split; [by vm_compute|].
  eexists _, _. split; [by destruct p; vm_compute|]. split; [by destruct p; vm_compute|].
  intros id. destruct p; do 3 (destruct id as [|id]; [by vm_compute|]); done.
Qed.

(** ** C17 *)
Theorem C17_add_reply : forall p s s' o,
  counter_step p s (CeMsg CmAddVisitor) = Some (s', Some (CrAdded o)) ->
  exists m m', reads_data p s m /\ reads_data p s' m' /\ add_visitor p m = Val m' /\
    avr_duration o = m_get_duration m /\ m_get_duration m' = m_get_duration m /\
    m_get_difficulty m' = Val (avr_difficulty_factor o).
Proof. exact add_reply. Qed.
Print Assumptions C17_add_reply.

Theorem C17_add_always_answered : forall p t0 m es s os,
  built_mcaptcha p m -> visits_only es ->
  counter_run p (CounterSys t0 (counter_start m)) es = Some (s, os) ->
  count (arrivals_of 0 t0 es) < u32_max ->
  exists s' o, counter_step p s (CeMsg CmAddVisitor) = Some (s', Some (CrAdded o)).
Proof. exact c17_add_always_answered. Qed.
Print Assumptions C17_add_always_answered.

Theorem C17_reads_change_nothing : forall p s msg,
  msg = CmGetCurrentVisitorCount \/ msg = CmGetInternalData ->
  exists r, counter_step p s (CeMsg msg) = Some (s, Some r).
Proof. exact c17_reads_change_nothing. Qed.
Print Assumptions C17_reads_change_nothing.

Example C17_witness : forall p, exists s os s' o,
  counter_run p (CounterSys 0 (counter_start ex_m3)) ex_schedule = Some (s, os) /\
  counter_step p s (CeMsg CmAddVisitor) = Some (s', Some (CrAdded o)) /\
  o = AddVisitorResult 30 20.
Proof.
  intros p. eexists _, _, _, _. split; [by destruct p; vm_compute|].
  split; [by destruct p; vm_compute|]. done.
Qed.

(** ** C18 *)
Theorem C18_restore_never_overcounts : forall p m0 t0 es0 s os0 d es s' os' n,
  counter_run p (CounterSys t0 (counter_start m0)) es0 = Some (s, os0) ->
  no_restore es ->
  counter_run p s (CeMsg (CmSetInternalData d) :: es) = Some (s', os') ->
  reads_count p s' n ->
  let k := ct_next (cs_counter s) in
  let arr := arrivals_of (S k) (cs_now s) es in
  n <= (if bool_decide (CeFire k ∈ es) then 0 else m_visitors d) + count (unexpired es arr).
Proof. exact restore_never_overcounts. Qed.
Print Assumptions C18_restore_never_overcounts.

Theorem C18_restore_never_overcounts_timed : forall p m0 t0 es0 s os0 d es s' os' n,
  counter_run p (CounterSys t0 (counter_start m0)) es0 = Some (s, os0) ->
  no_restore es ->
  counter_run p s (CeMsg (CmSetInternalData d) :: es) = Some (s', os') ->
  reads_count p s' n -> no_overdue p s' ->
  let k := ct_next (cs_counter s) in
  let arr := arrivals_of (S k) (cs_now s) es in
  let now := clock (cs_now s) es in
  n <= (if now <? cs_now s + m_duration d * NS then m_visitors d else 0)
       + count (young now (m_duration d) arr).
Proof. exact restore_never_overcounts_timed. Qed.
Print Assumptions C18_restore_never_overcounts_timed.

Theorem C18_quiet_after_restore_is_zero : forall p m0 t0 es0 s os0 d es s' os' n,
  counter_run p (CounterSys t0 (counter_start m0)) es0 = Some (s, os0) ->
  no_restore es -> CeMsg CmAddVisitor ∉ es ->
  counter_run p s (CeMsg (CmSetInternalData d) :: es) = Some (s', os') ->
  reads_count p s' n -> no_overdue p s' ->
  cs_now s + m_duration d * NS <= clock (cs_now s) es -> n = 0.
Proof. exact c18_quiet_after_restore_is_zero. Qed.
Print Assumptions C18_quiet_after_restore_is_zero.

(** Two visitors, then a restore to five, an arrival, an old expiry. *)
Example C18_witness : forall p, exists s os s' os',
  counter_run p (CounterSys 0 (counter_start ex_m3)) [CeMsg CmAddVisitor; CeMsg CmAddVisitor] = Some (s, os) /\
  counter_run p s (CeMsg (CmSetInternalData (MCaptcha 5 example3 30)) ::
     [CeTick (30 * sec); CeMsg CmAddVisitor; CeFire 0; CeFire 2]) = Some (s', os') /\
  ct_next (cs_counter s) = 2%nat /\ reads_count p s' 0.
Proof.
  intros p. eexists _, _, _, _. split; [by destruct p; vm_compute|].
  split; [by destruct p; vm_compute|]. split; [done|]. by destruct p; vm_compute.
Qed.

(** Every restore of a live counter is answered and takes over at once. *)
Theorem C18_restore_takes_over : forall p s n d,
  reads_count p s n ->
  exists s', counter_step p s (CeMsg (CmSetInternalData d)) = Some (s', Some CrUnit) /\
    reads_data p s' d /\ reads_count p s' (m_visitors d) /\ cs_now s' = cs_now s.
Proof. exact restore_takes_over. Qed.
Print Assumptions C18_restore_takes_over.

(** Restored into a counter without pending expiries, the visitors of the saved
    data count for exactly one duration from the restore, next to the arrivals. *)
Theorem C18_fresh_restore_exact : forall p m0 t0 d es s os,
  reachable_mcaptcha p d -> visits_only es ->
  counter_run p (CounterSys t0 (counter_start m0)) (CeMsg (CmSetInternalData d) :: es) = Some (s, os) ->
  let arr := arrivals_of 1 t0 es in
  let now := clock t0 es in
  m_visitors d + count arr <= u32_max ->
  exists n, reads_count p s n /\
    n = (if bool_decide (CeFire 0 ∈ es) then 0 else m_visitors d) + count (unexpired es arr) /\
    (if now <? t0 + m_duration d * NS then m_visitors d else 0) + count (young now (m_duration d) arr) <= n /\
    (no_overdue p s ->
     n = (if now <? t0 + m_duration d * NS then m_visitors d else 0) + count (young now (m_duration d) arr)).
Proof. exact c18_fresh_restore_exact. Qed.
Print Assumptions C18_fresh_restore_exact.

(** Two saved visitors and one arrival ten seconds after the restore. *)
Example C18_exact_witness : forall p, exists m s os,
  reachable_mcaptcha p m /\ m_visitors m = 2 /\
  counter_run p (CounterSys 0 (counter_start ex_m3)) (CeMsg (CmSetInternalData m) ::
     [CeTick (10 * sec); CeMsg CmAddVisitor; CeTick (20 * sec)]) = Some (s, os) /\
  reads_count p s 3 /\ exists s' os', counter_run p s [CeFire 0] = Some (s', os') /\ reads_count p s' 1.
Proof.
  intros p. exists (MCaptcha 2 (Defense (d_levels example3) 1) 30). eexists _, _.
  split. { exists ex_m3, [MAdd; MAdd]. split; [apply fresh_built, ex_m3_fresh|by destruct p]. }
  split; [done|]. split; [by destruct p; vm_compute|]. split; [by destruct p; vm_compute|].
  eexists _, _. split; by destruct p; vm_compute.
Qed.

(** ** C19: for every configuration, saving and restoring the very same data
    makes a visitor who arrives one tick later be forgotten one tick early. *)
Theorem C19_restored_counter_forgets_early_refuted : forall p m,
  built_mcaptcha p m ->
  exists s1 os1 m1 s2 os2,
    let before := [CeMsg CmAddVisitor] in
    let after := [CeMsg (CmSetInternalData m1); CeTick 1; CeMsg CmAddVisitor;
                  CeTick (m_duration m * NS - 1); CeFire 0; CeFire 1] in
    counter_run p (CounterSys 0 (counter_start m)) before = Some (s1, os1) /\
    reads_data p s1 m1 /\ reads_count p s1 1 /\
    counter_run p s1 after = Some (s2, os2) /\
    no_overdue p s2 /\ m_duration m1 = m_duration m /\
    count (young (clock 0 (before ++ after)) (m_duration m) (arrivals_of 0 0 (before ++ after))) = 1 /\
    reads_count p s2 0.
Proof. exact c19_restored_counter_forgets_early_refuted. Qed.
Print Assumptions C19_restored_counter_forgets_early_refuted.

(** ** C20 *)
Theorem C20_stop : forall p s,
  (exists n, reads_count p s n) ->
  exists s', counter_step p s (CeMsg CmStop) = Some (s', Some CrUnit) /\
    forall es s'' os, counter_run p s' es = Some (s'', os) ->
      (forall id, CeFire id ∉ es) /\
      os = (fun e => match e with CeMsg _ => Some CrMailboxError | _ => None end) <$> es.
Proof. exact c20_stop. Qed.
Print Assumptions C20_stop.

Example C20_witness : forall p, exists s os s' o s'' os'',
  counter_run p (CounterSys 0 (counter_start ex_m3)) ex_schedule = Some (s, os) /\
  reads_count p s 2 /\
  counter_step p s (CeMsg CmStop) = Some (s', o) /\
  counter_run p s' [CeMsg CmAddVisitor; CeTick 5; CeMsg CmGetInternalData] = Some (s'', os'') /\
  os'' = [Some CrMailboxError; None; Some CrMailboxError].
Proof.
  intros p. eexists _, _, _, _, _, _. split; [by destruct p; vm_compute|].
  split; [by destruct p; vm_compute|]. split; [by destruct p; vm_compute|].
  split; [by destruct p; vm_compute|]. done.
Qed.

(** ** C21 *)
Theorem C21_saved_visitors_never_expire_refuted : forall p t0 m es s os,
  reachable_mcaptcha p m -> 0 < m_visitors m -> visits_only es ->
  counter_run p (CounterSys t0 (counter_start m)) es = Some (s, os) ->
  m_visitors m + count (arrivals_of 0 t0 es) <= u32_max ->
  exists n, reads_count p s n /\
    n = m_visitors m + count (unexpired es (arrivals_of 0 t0 es)) /\ 0 < n /\
    (no_overdue p s ->
     n = m_visitors m + count (young (clock t0 es) (m_duration m) (arrivals_of 0 t0 es))).
Proof. exact c21_saved_visitors_never_expire_refuted. Qed.
Print Assumptions C21_saved_visitors_never_expire_refuted.

Example C21_witness : forall p, exists m s os,
  reachable_mcaptcha p m /\ m_visitors m = 2 /\
  counter_run p (CounterSys 0 (counter_start m)) [CeTick (1000000 * sec)] = Some (s, os) /\
  no_overdue p s /\ reads_count p s 2.
Proof.
  intros p. exists (MCaptcha 2 (Defense (d_levels example3) 1) 30). eexists _, _.
  split. { exists ex_m3, [MAdd; MAdd]. split; [apply fresh_built, ex_m3_fresh|by destruct p]. }
  split; [done|]. split; [done|]. split; [by intros id|done].
Qed.
