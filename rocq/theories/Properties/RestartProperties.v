(** C107: moving the sites to the Master of a new process - dump, JSON, restore. *)
From Coq Require Import ZifyBool ZifyN ZifyNat Lia.
From Verif Require Import Model.Base Model.Defense Model.MCaptcha Model.Counter Model.Json Model.Serde Model.Master
  Spec.DefenseSpec Spec.MCaptchaSpec Spec.CounterSpec Spec.MasterSpec Spec.SiteSpec Spec.SerdeSpec Spec.RestartSpec
  Proofs.DefenseProofs Proofs.MCaptchaProofs Proofs.CounterProofs Proofs.MasterProofs Proofs.MasterTasks
  Proofs.SiteCounter Proofs.SiteProofs Proofs.SerdeProofs Proofs.RestartProofs
  Properties.DefenseProperties Properties.MCaptchaProperties Properties.MasterProperties Properties.SerdeProperties.
Import Master.
From Verif Require Export Proofs.RestartTheorems.

(** ** C107 *)
(** The dump can be taken, written, read and restored at any moment. *)
Theorem C107_can_move : forall p t gc es s tr,
  m_run p (m_start t gc) es = Some (s, tr) -> my_alive s = true -> Forall (sound_event p) es ->
  exists d es', dumped p s d /\ moves d es'.
Proof. exact c107_can_move. Qed.
Print Assumptions C107_can_move.

(** The new Master then serves the same names with the same data, and a name
    the old one did not know is unknown to the new one. *)
Theorem C107_same_sites : forall p t gc es s tr d t' gc' es',
  m_run p (m_start t gc) es = Some (s, tr) -> my_alive s = true -> Forall (sound_event p) es ->
  dumped p s d -> moves d es' ->
  exists s' tr', m_run p (m_start t' gc') es' = Some (s', tr') /\
    (forall id m, serves s tr id m <-> serves s' tr' id m) /\
    (forall id, bound (hist tr) id = None -> bound (hist tr') id = None).
Proof. exact c107_same_sites. Qed.
Print Assumptions C107_same_sites.

Theorem C107_first_visitor : forall p t gc es s tr d t' gc' es' s' tr' id m,
  m_run p (m_start t gc) es = Some (s, tr) -> my_alive s = true -> Forall (sound_event p) es ->
  dumped p s d -> moves d es' -> m_run p (m_start t' gc') es' = Some (s', tr') -> serves s tr id m ->
  exists r s1 o s1' o',
    m_run p s [MeReq (RqAddVisitor id); MeTask (my_next s)] = Some (s1, o) /\ answers (my_reqs s) o = [MrVisit r] /\
    m_run p s' [MeReq (RqAddVisitor id); MeTask (my_next s')] = Some (s1', o') /\ answers (my_reqs s') o' = [MrVisit r].
Proof. exact c107_first_visitor. Qed.
Print Assumptions C107_first_visitor.

Theorem C107_never_forgotten_refuted : forall p t gc es s tr d t' gc' es' s' tr' es2 s2 tr2 id m c n,
  m_run p (m_start t gc) es = Some (s, tr) -> my_alive s = true -> Forall (sound_event p) es ->
  dumped p s d -> moves d es' -> m_run p (m_start t' gc') es' = Some (s', tr') ->
  serves s tr id m -> bound (hist tr') id = Some c ->
  m_run p s' es2 = Some (s2, tr2) -> Forall (fun e => ~ writes e) es2 ->
  let times := (visits t' c (m_log p (m_start t' gc') (es' ++ es2) [])).*1 in
  m_visitors m + count times <= u32_max -> count_at s2 c n ->
  m_visitors m + window (m_duration m) (my_now s2) times <= n /\
  ((forall k, m_step p s2 (MeFire c k) = None) -> n = m_visitors m + window (m_duration m) (my_now s2) times).
Proof. exact c107_never_forgotten_refuted. Qed.
Print Assumptions C107_never_forgotten_refuted.

(** And the site stays hard for ever: each visitor gets at least the difficulty
    of every level below the number of saved visitors. *)
Theorem C107_hard_for_ever_refuted : forall p t gc es s tr d t' gc' es' s' tr' es2 s2 tr2 id m c e s3 o x v lv,
  m_run p (m_start t gc) es = Some (s, tr) -> my_alive s = true -> Forall (sound_event p) es ->
  dumped p s d -> moves d es' -> m_run p (m_start t' gc') es' = Some (s', tr') ->
  serves s tr id m -> bound (hist tr') id = Some c ->
  m_run p s' es2 = Some (s2, tr2) -> Forall (fun e => ~ writes e) es2 ->
  let l := m_log p (m_start t' gc') (es' ++ es2) [] in
  m_visitors m + count (visits t' c l).*1 < u32_max ->
  m_step p s2 e = Some (s3, o) -> x ∈ o -> said l c x = Some v ->
  lv ∈ d_levels (m_defense m) -> visitor_threshold lv <= m_visitors m ->
  difficulty_factor lv <= avr_difficulty_factor v.
Proof. exact c107_hard_for_ever_refuted. Qed.
Print Assumptions C107_hard_for_ever_refuted.

(** The old Master would have forgotten them: once nobody came for the duration,
    and no departure is overdue, the site has no visitors. *)
Theorem C107_old_forgets : forall p t gc es s tr c t0 m n,
  m_run p (m_start t gc) es = Some (s, tr) ->
  let l := m_log p (m_start t gc) es [] in let times := (visits t c l).*1 in
  registered t c l = Some (t0, m) -> built_mcaptcha p m -> ~ restored c l -> count times <= u32_max ->
  (forall tm, tm ∈ times -> tm + m_duration m * NS <= my_now s) -> (forall k, m_step p s (MeFire c k) = None) ->
  count_at s c n -> n = 0.
Proof. exact c107_old_forgets. Qed.
Print Assumptions C107_old_forgets.

(** Three visitors of a site with a window of 30 s, then the move.  A million
    seconds later the site has three visitors on the new Master and none on the
    old one; the next visitor gets 30 on the new one, and 20 on the old one. *)
Definition ex_visitors : list mevent :=
  [MeReq (RqAddSite "site" ex_m3); MeReq (RqAddVisitor "site"); MeTask 1; MeReq (RqAddVisitor "site"); MeTask 2;
   MeReq (RqAddVisitor "site"); MeTask 3].

Definition ex_saved : mcaptcha := MCaptcha 3 (Defense (d_levels example3) 2) 30.

Definition ex_dump : gmap string mcaptcha := {[ "site" := ex_saved ]}.

Definition ex_moved : list mevent := [MeReq (RqSetData ex_dump); MeTask 1].

Definition ex_later : list mevent := [MeTick (1000000 * NS)].

Example C107_witness : forall p, exists s tr s' tr' s2 tr2 s3 o s4 tr4,
  m_run p (m_start 0 60) ex_visitors = Some (s, tr) /\ my_alive s = true /\ Forall (sound_event p) ex_visitors /\
  dumped p s ex_dump /\ moves ex_dump ex_moved /\ serves s tr "site" ex_saved /\
  m_run p (m_start 7 60) ex_moved = Some (s', tr') /\ bound (hist tr') "site" = Some 0%nat /\
  m_run p s' (ex_later ++ [MeReq (RqAddVisitor "site")]) = Some (s2, tr2) /\
  Forall (fun e => ~ writes e) (ex_later ++ [MeReq (RqAddVisitor "site")]) /\ count_at s2 0 3 /\
  m_step p s2 (MeTask 2) = Some (s3, o) /\ MoReply 1 (MrVisit (Ok (Some (AddVisitorResult 30 30)))) ∈ o /\
  said (m_log p (m_start 7 60) (ex_moved ++ ex_later ++ [MeReq (RqAddVisitor "site")]) []) 0
    (MoReply 1 (MrVisit (Ok (Some (AddVisitorResult 30 30))))) = Some (AddVisitorResult 30 30) /\
  (** the old one *)
  m_run p s (ex_later ++ [MeFire 0 0; MeFire 0 1; MeFire 0 2]) = Some (s4, tr4) /\ count_at s4 0 0 /\
  exists s5 tr5, m_run p s4 [MeReq (RqAddVisitor "site"); MeTask 4] = Some (s5, tr5) /\
    MoReply 4 (MrVisit (Ok (Some (AddVisitorResult 30 20)))) ∈ tr5.
Proof.
  intros p. eexists _, _, _, _, _, _, _, _, _, _. split; [by destruct p; vm_compute|]. split; [done|].
  assert (sound_site p ex_m3) as Hm3.
  { split; [|by vm_compute]. exists ex_m3, []. split; [apply fresh_built, ex_m3_fresh|done]. }
  split; [repeat (apply Forall_cons_2; [done|]); by apply Forall_nil_2|]. split.
  { exists 2%nat. eexists _, _. split; [by destruct p; vm_compute|]. by right; left. }
  split.
  { exists (map_to_list ex_dump), ex_dump, [0%nat]. split; [done|]. split.
    - apply C66_dump; [done|]. intros k x Hk. unfold ex_dump in Hk. apply lookup_singleton_Some in Hk as [<- <-]. split; [by vm_compute|]. split; [|by vm_compute].
      split; [|by vm_compute]. repeat (apply Forall_cons_2; [by vm_compute|]); by apply Forall_nil_2.
    - split; [|done]. unfold ex_dump. by rewrite map_size_singleton. }
  split; [exists 0%nat; split; [done|]; by eexists|].
  split; [by destruct p; vm_compute|]. split; [done|]. split; [by destruct p; vm_compute|].
  split; [unfold ex_later; cbn [app]; repeat (apply Forall_cons_2; [by intros []|]); by apply Forall_nil_2|]. split; [by eexists|]. split; [by destruct p; vm_compute|].
  split; [by left|]. split; [by destruct p; vm_compute|]. split; [by destruct p; vm_compute|].
  split; [by eexists|]. eexists _, _. split; [by destruct p; vm_compute|]. by right; left.
Qed.
