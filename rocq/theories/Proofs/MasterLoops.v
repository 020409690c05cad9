(** Proofs about cleanup passes that overlap with removals and with each other,
    and about how many of them there are. *)
From Coq Require Import ZifyBool ZifyN ZifyNat Lia.
From Verif Require Import Model.Base Model.Defense Model.MCaptcha Model.Counter Model.Master
  Spec.MCaptchaSpec Spec.CounterSpec Spec.MasterSpec Proofs.MCaptchaProofs Proofs.CounterProofs
  Proofs.MasterProofs Proofs.MasterTasks.

(** A pass with a stopped counter ahead kills the master, whatever has become of
    the names meanwhile. *)
Lemma death_ahead p t todo s :
  minv s -> my_alive s = true -> my_tasks s !! t = Some (TClean todo PCount) ->
  (exists id x, (id, x) ∈ todo /\ dead_at s (si_ctr x)) ->
  exists n s' o, m_run p s (replicate n (MeTask t)) = Some (s', o) /\ my_alive s' = false.
Proof.
  revert s. induction todo as [|[id [rd c]] rest IH]; intros s Hi Hal Ht (idd & xd & Hind & Hdd).
  { by apply elem_of_nil in Hind. }
  destruct (mv_task _ Hi _ _ Ht) as (Hlt & Hct & _ & Hdt).
  cbn [task_ctrs] in Hct. rewrite fmap_cons in Hct. cbn [snd si_ctr] in Hct. apply Forall_cons in Hct as [Hcl _].
  destruct (lookup_lt_is_Some_2 _ _ Hcl) as [y Hy].
  destruct (ct_alive y) eqn:Hya.
  2:{ destruct (death_step p s t id (Site rd c) rest PCount) as (s' & o & Hs & Hd); try done; [by exists y|].
      exists 1%nat, s', (o ++ []). split; [|done]. by eapply run_cons. }
  apply elem_of_cons in Hind as [[= -> ->]|Hind].
  { destruct Hdd as (z & Hz & Hzd). cbn [si_ctr] in Hz. congruence. }
  assert (send_counter p s c CmGetCurrentVisitorCount = Some (s, CrCount (m_get_visitors (ct_data y)))) as E1.
  { unfold send_counter. rewrite Hy. unfold counter_handle. rewrite Hya.
    rewrite list_insert_id by done. by destruct s. }
  assert (m_step p s (MeTask t) =
    Some (set_task s t (if (m_get_visitors (ct_data y) =? 0) && rd then TClean ((id, Site rd c) :: rest) PStop
                        else TClean rest PCount), [])) as S1.
  { cbn [m_step]. rewrite Hal. unfold task_step. rewrite Ht, E1. done. }
  pose proof (m_step_inv _ _ _ _ _ Hi S1) as Hi1.
  destruct ((m_get_visitors (ct_data y) =? 0) && rd) eqn:Eidle.
  - set (s1 := set_task s t (TClean ((id, Site rd c) :: rest) PStop)) in *.
    set (s2 := set_task (set_ctrs s1 (<[c := kill y]> (my_ctrs s1))) t (TClean ((id, Site rd c) :: rest) PRemove)).
    assert (m_step p s1 (MeTask t) = Some (s2, [])) as S2.
    { cbn [m_step]. unfold s1 at 1. cbn [my_alive set_task set_tasks]. rewrite Hal. unfold task_step.
      unfold s1 at 1. cbn [my_tasks set_task set_tasks]. rewrite lookup_insert.
      unfold send_counter. unfold s1 at 1. cbn [my_ctrs set_task set_tasks]. rewrite Hy.
      unfold counter_handle. rewrite Hya. done. }
    pose proof (m_step_inv _ _ _ _ _ Hi1 S2) as Hi2.
    destruct (m_handle (set_task s2 t (TClean rest PCount)) None (RqRemove id)) as [s3 o3] eqn:E3.
    assert (m_step p s2 (MeTask t) = Some (s3, MoHandle (RqRemove id) :: o3)) as S3.
    { cbn [m_step]. unfold s2 at 1. cbn [my_alive set_task set_tasks set_ctrs]. unfold s1 at 1.
      cbn [my_alive set_task set_tasks set_ctrs]. rewrite Hal. unfold task_step.
      unfold s2 at 1. cbn [my_tasks set_task set_tasks]. rewrite lookup_insert. by rewrite E3. }
    pose proof (m_step_inv _ _ _ _ _ Hi2 S3) as Hi3.
    apply m_handle_frame in E3 as (A3 & _ & _ & _ & T3 & _).
    destruct (IH s3 Hi3) as (n & s' & o & Hr & Hdead).
    { rewrite A3. exact Hal. }
    { rewrite T3 by exact Hlt. cbn. apply lookup_insert. }
    { exists idd, xd. split; [done|]. eapply dead_at_step; [|exact S3]. eapply dead_at_step; [|exact S2].
      by eapply dead_at_step; [|exact S1]. }
    exists (3 + n)%nat, s', ([] ++ [] ++ (MoHandle (RqRemove id) :: o3) ++ o). split; [|done].
    change (replicate (3 + n) (MeTask t)) with (MeTask t :: MeTask t :: MeTask t :: replicate n (MeTask t)).
    eapply run_cons; [exact S1|]. eapply run_cons; [exact S2|]. by eapply run_cons; [exact S3|].
  - destruct (IH (set_task s t (TClean rest PCount)) Hi1 Hal) as (n & s' & o & Hr & Hdead).
    { apply lookup_insert. }
    { exists idd, xd. split; [done|]. by eapply dead_at_step; [|exact S1]. }
    exists (S n), s', ([] ++ o). split; [|done]. by eapply run_cons.
Qed.

(** Steps of one task leave the others alone, as long as the master lives. *)
Lemma other_task_kept p t t' n s s' o x :
  minv s -> my_alive s' = true -> t' <> t -> m_run p s (replicate n (MeTask t)) = Some (s', o) ->
  my_tasks s !! t' = Some x -> my_tasks s' !! t' = Some x.
Proof.
  revert s o. induction n as [|n IH]; intros s o Hi Ha Hn Hr Hx; [by injection Hr as <- <-|].
  cbn [replicate m_run] in Hr. destruct (m_step p s (MeTask t)) as [[s1 o1]|] eqn:E; [|done].
  destruct (m_run p s1 _) as [[s2 o2]|] eqn:E2; [|done]. injection Hr as <- <-.
  eapply (IH s1); [by eapply m_step_inv|done|done|exact E2|].
  destruct (m_step_tasks _ _ _ _ _ Hi E) as [(s0 & _ & Hd & _)|(_ & Hk & _)].
  - assert (my_alive s1 = false) as Hf by (unfold m_die in Hd; by injection Hd as -> _).
    destruct (dead_run _ _ _ _ _ Hf E2). congruence.
  - apply Hk; [done|congruence].
Qed.

(** * Counting the cleanup loops *)
Definition loop (x : task) : Prop := match x with TWake _ | TClean _ _ => True | _ => False end.
Global Instance loop_dec x : Decision (loop x).
Proof. destruct x; apply _. Defined.
Definition loop_at (s : msys) (t : nat) : Prop := exists x, my_tasks s !! t = Some x /\ loop x.

Lemma fresh_task s : minv s -> my_tasks s !! my_next s = None.
Proof. intros Hi. apply eq_None_not_Some. intros [x Hx]. destruct (mv_task _ Hi _ _ Hx). lia. Qed.
Lemma loop_at_spawn s x : my_tasks s !! my_next s = None -> ~ loop x -> forall t, loop_at (spawn s x) t <-> loop_at s t.
Proof.
  intros Hf Hx t. unfold loop_at. cbn. destruct (decide (t = my_next s)) as [->|Hn].
  - rewrite lookup_insert, Hf. split; intros (y & Hy & Hl); [by injection Hy as <-|done].
  - by rewrite lookup_insert_ne.
Qed.
Lemma m_handle_loops s k r s' o :
  my_tasks s !! my_next s = None -> (forall t, (my_next s <= t)%nat -> my_tasks s !! t = None) ->
  m_handle s k r = (s', o) ->
  (r = RqCleanUp /\ my_tasks s' = <[my_next s := TClean (sites_iter (my_sites s)) PCount]> (my_tasks s)) \/
  (r <> RqCleanUp /\ forall t, (loop_at s' t <-> loop_at s t) /\
     forall due, my_tasks s' !! t = Some (TWake due) -> my_tasks s !! t = Some (TWake due)).
Proof.
  intros Hf Hfr Hh.
  assert (forall x t, ~ loop x -> (loop_at (spawn s x) t <-> loop_at s t) /\
    forall due, my_tasks (spawn s x) !! t = Some (TWake due) -> my_tasks s !! t = Some (TWake due)) as Hsp.
  { intros x t Hx. split; [by apply loop_at_spawn|]. intros due. cbn.
    destruct (decide (t = my_next s)) as [->|Hn]; [|by rewrite lookup_insert_ne].
    rewrite lookup_insert. intros H. injection H as ->. by destruct Hx. }
  destruct r; cbn [m_handle] in Hh; [right; split; [done|]..|left; split; [done|]].
  - injection Hh as <- <-. done.
  - injection Hh as <- <-. done.
  - unfold rm_site in Hh. destruct (my_sites s !! id) as [x|]; injection Hh as <- <-; [|done].
    intros t. apply (Hsp (TStop k (si_ctr x)) t). exact (fun H => H).
  - destruct (get_site _ _) as [ss [c|]]; injection Hh as <- <-; [|done].
    intros t. apply (Hsp (TVisit k c) t). exact (fun H => H).
  - destruct (get_site _ _) as [ss a]; injection Hh as <- <-. done.
  - injection Hh as <- <-. intros t. apply (Hsp (TGet k (sites_iter (my_sites s)) ∅) t). exact (fun H => H).
  - injection Hh as <- <-. intros t. unfold loop_at. rewrite set_data_tasks.
    destruct (decide _) as [Hd|Hd]; [|done].
    assert (my_tasks s !! t = None) as -> by (apply Hfr; lia).
    destruct (map_to_list d !! _) as [[nm m]|]; cbn [fmap option_fmap option_map].
    2:{ split; [split; by intros (y & ? & _)|done]. }
    unfold set_task_of. cbn [fst snd]. destruct (my_sites s !! nm) as [[]|];
      (split; [split; intros (y & Hy & Hl); [by injection Hy as <-|done]|done]).
  - injection Hh as <- <-. done.
Qed.

(** What a step does to the loops. *)
Lemma m_step_loops p s e s' o :
  minv s -> my_alive s' = true -> m_step p s e = Some (s', o) ->
  my_alive s = true /\ my_gc s' = my_gc s /\
  ((e = MeReq RqCleanUp /\ (forall t, loop_at s' t <-> t = my_next s \/ loop_at s t)) \/
   (e <> MeReq RqCleanUp /\ exists w, loop_at s w /\ ~ loop_at s' w /\
      (forall t, loop_at s' t <-> t = my_next s \/ (loop_at s t /\ t <> w))) \/
   (e <> MeReq RqCleanUp /\ (forall t, loop_at s' t <-> loop_at s t))) /\
  (forall t due, my_tasks s' !! t = Some (TWake due) ->
     my_tasks s !! t = Some (TWake due) \/ due = my_now s + my_gc s * NS).
Proof.
  intros Hi Ha' Hs. pose proof (fresh_task _ Hi) as Hf.
  assert (forall t, (my_next s <= t)%nat -> my_tasks s !! t = None) as Hfr.
  { intros t Ht. apply eq_None_not_Some. intros [x Hx]. destruct (mv_task _ Hi _ _ Hx). lia. }
  assert (forall w x t, my_tasks s !! w = Some x -> loop x ->
     loop_at s t <-> t = w \/ (loop_at s t /\ t <> w)) as Hsplit.
  { intros w x t Hx Hl. destruct (decide (t = w)) as [->|]; [|tauto]. split; [by left|]. intros _. by exists x. }
  destruct e as [r|w|c id|c msg|d]; cbn [m_step] in Hs.
  - destruct (my_alive s) eqn:Ea.
    2:{ injection Hs as <- <-. cbn in Ha'. congruence. }
    destruct (m_handle _ _ r) as [s1 o1] eqn:E. injection Hs as <- <-.
    pose proof (m_handle_frame _ _ _ _ _ E) as (_ & _ & _ & G & _). split; [done|]. split; [done|].
    apply m_handle_loops in E as [[-> E]|[Hn E]]; [..|done|done].
    + split.
      * left. split; [done|]. intros t. unfold loop_at. rewrite E. cbn.
        destruct (decide (t = my_next s)) as [->|Hn].
        -- rewrite lookup_insert. split; [by left|]. intros _. by eexists.
        -- rewrite lookup_insert_ne by done. tauto.
      * intros t due. rewrite E. cbn. destruct (decide (t = my_next s)) as [->|Hn]; [by rewrite lookup_insert|].
        rewrite lookup_insert_ne by done. tauto.
    + split; [right; right; split; [congruence|]; intros t; apply (E t)|]. intros t due H. left. by apply (E t).
  - destruct (my_alive s) eqn:Ea; [|done]. split; [done|]. unfold task_step in Hs.
    destruct (my_tasks s !! w) as [x|] eqn:Et; [|done].
    assert (forall s1, my_tasks s1 = my_tasks s -> my_gc s1 = my_gc s -> ~ loop x ->
      my_gc (end_task s1 w) = my_gc s /\ (forall t, loop_at (end_task s1 w) t <-> loop_at s t) /\
      forall t due, my_tasks (end_task s1 w) !! t = Some (TWake due) -> my_tasks s !! t = Some (TWake due)) as Hend.
    { intros s1 H1 H2 Hx. split; [done|]. split.
      - intros t. unfold loop_at. cbn. rewrite H1. destruct (decide (t = w)) as [->|Hn]; [|by rewrite lookup_delete_ne].
        rewrite lookup_delete, Et. split; intros (y & Hy & Hl); [done|by injection Hy as <-].
      - intros t due. cbn. rewrite H1. by intros [_ H]%lookup_delete_Some. }
    assert (forall s1 y, my_tasks s1 = my_tasks s -> my_gc s1 = my_gc s -> (loop x <-> loop y) ->
      (forall due, y = TWake due -> due = my_now s + my_gc s * NS) ->
      my_gc (set_task s1 w y) = my_gc s /\ (forall t, loop_at (set_task s1 w y) t <-> loop_at s t) /\
      forall t due, my_tasks (set_task s1 w y) !! t = Some (TWake due) ->
        my_tasks s !! t = Some (TWake due) \/ due = my_now s + my_gc s * NS) as Hset.
    { intros s1 y H1 H2 Hx Hy. split; [done|]. split.
      - intros t. unfold loop_at. cbn. rewrite H1. destruct (decide (t = w)) as [->|Hn]; [|by rewrite lookup_insert_ne].
        rewrite lookup_insert, Et. split; intros (z & [= <-] & Hz); eexists; (split; [done|]); tauto.
      - intros t due. cbn. rewrite H1. destruct (decide (t = w)) as [->|Hn].
        + rewrite lookup_insert. intros [= H]. right. by apply Hy.
        + rewrite lookup_insert_ne by done. tauto. }
    assert (forall a r s1 o1, m_handle a None r = (s1, o1) -> r <> RqCleanUp ->
       (my_tasks a !! my_next a = None /\ forall t, (my_next a <= t)%nat -> my_tasks a !! t = None) ->
       my_gc s1 = my_gc a /\ (forall t, loop_at s1 t <-> loop_at a t) /\
       forall t due, my_tasks s1 !! t = Some (TWake due) -> my_tasks a !! t = Some (TWake due)) as Hown.
    { intros a r s1 o1 E Hr [F1 F2]. pose proof (m_handle_frame _ _ _ _ _ E) as (_ & _ & _ & G & _). split; [done|].
      apply m_handle_loops in E as [[-> E]|[_ E]]; [done|..|done|done]. split; intros t; apply (E t). }
    assert (forall s1, my_tasks s1 = delete w (my_tasks s) -> my_next s1 = my_next s ->
       my_tasks s1 !! my_next s1 = None /\ forall t, (my_next s1 <= t)%nat -> my_tasks s1 !! t = None) as Fend.
    { intros s1 H1 H2. rewrite H1, H2. split; [apply lookup_delete_None; by right|].
      intros t Ht. apply lookup_delete_None. right. by apply Hfr. }
    destruct x as [due|[|[id [rd c]] rest] []|k c|k c|k [|[id [rd c]] rest] acc|c m|id m];
    repeat match goal with
    | H : (if ?b then _ else _) = Some _ |- _ => destruct b eqn:?; [|done]
    | H : match send_counter p s ?c ?m with _ => _ end = Some _ |- _ =>
        destruct (send_counter p s c m) as [[s1 r]|] eqn:E; [|done];
        apply send_counter_eq in E as (x & x' & Hx & Hh & ->); try destruct r
    | H : (let '(_, _) := ?x in _) = Some _ |- _ => destruct x as [s1 o1] eqn:E
    end; try (injection Hs as <- <-); try (cbn in Ha'; congruence);
    try (match goal with |- context [end_task ?s1 w] => destruct (Hend s1 eq_refl eq_refl) as (G1 & G2 & G3); [exact (fun H => H)|] end;
         split; [done|]; split; [right; right; split; [done|exact G2]|]; intros t due' H'; left; by apply G3);
    try (match goal with |- context [set_task ?s1 w ?y] => destruct (Hset s1 y eq_refl eq_refl) as (G1 & G2 & G3);
           [try (destruct (_ && _)); done|first [by intros ? [= ->]|by intros ?; try (destruct (_ && _))]|] end;
         split; [exact G1|]; split; [right; right; split; [done|exact G2]|exact G3]).
    + (* waking up *)
      cbn [m_handle] in E. injection E as <- <-. split; [done|]. destruct (mv_task _ Hi _ _ Et) as (Hlt & _). split.
      * right. left. split; [done|]. exists w. split; [by exists (TWake due)|]. unfold loop_at. cbn. split.
        { rewrite lookup_insert_ne by lia. rewrite lookup_delete. by intros (? & ? & _). }
        intros t. destruct (decide (t = my_next s)) as [->|Hn].
        -- rewrite lookup_insert. split; [by left|]. intros _. by eexists.
        -- rewrite lookup_insert_ne by done. destruct (decide (t = w)) as [->|Hw].
           ++ rewrite lookup_delete. split; [by intros (? & ? & _)|]. intros [?|[_ ?]]; [lia|done].
           ++ rewrite lookup_delete_ne by done. tauto.
      * intros t due'. cbn. destruct (decide (t = my_next s)) as [->|Hn]; [by rewrite lookup_insert|].
        rewrite lookup_insert_ne by done. intros [_ H]%lookup_delete_Some. by left.
    + (* removing *)
      destruct (Hown _ _ _ _ E) as (G1 & G2 & G3); [done|..].
      { destruct (mv_task _ Hi _ _ Et) as (Hlt & _). cbn. split; [rewrite lookup_insert_ne by lia; apply Hf|].
        intros t Ht. rewrite lookup_insert_ne by lia. by apply Hfr. }
      destruct (Hset s (TClean rest PCount) eq_refl eq_refl) as (K1 & K2 & K3); [done|done|].
      split; [congruence|]. split.
      * right. right. split; [done|]. intros t. by rewrite G2.
      * intros t due H. by apply K3, G3.
    + destruct (Hown _ _ _ _ E) as (G1 & G2 & G3); [done|by apply Fend|].
      destruct (Hend s eq_refl eq_refl) as (K1 & K2 & K3); [exact (fun H => H)|].
      split; [congruence|]. split.
      * right. right. split; [done|]. intros t. by rewrite G2.
      * intros t due H. left. by apply K3, G3.
  - destruct (my_ctrs s !! c); [|done]. destruct (counter_fire _ _ _); [|done]. injection Hs as <- <-.
    split; [done|]. split; [done|]. split; [right; right; by split|]. by left.
  - destruct (send_counter p s c _) as [[s1 r]|] eqn:E; [|done].
    apply send_counter_eq in E as (x & x' & Hx & Hh & ->). injection Hs as <- <-.
    split; [done|]. split; [done|]. split; [right; right; by split|]. by left.
  - injection Hs as <- <-. split; [done|]. split; [done|]. split; [right; right; by split|]. by left.
Qed.

Lemma m_step_now p s e s' o : m_step p s e = Some (s', o) -> my_now s <= my_now s'.
Proof.
  intros Hs. destruct e as [r|w|c id|c msg|d]; cbn [m_step] in Hs.
  - destruct (my_alive s); [|by injection Hs as <- <-].
    destruct (m_handle _ _ r) as [s1 o1] eqn:E. injection Hs as <- <-.
    pose proof (m_handle_frame _ _ _ _ _ E) as (_ & _ & -> & _). done.
  - destruct (my_alive s); [|done]. unfold task_step in Hs.
    destruct (my_tasks s !! w) as [[due|[|[id [rd c]] rest] []|k c|k c|k [|[id [rd c]] rest] acc|c m|id m]|]; [..|done];
    repeat match goal with
    | H : (if ?b then _ else _) = Some _ |- _ => destruct b; [|done]
    | H : match send_counter p s ?c ?m with _ => _ end = Some _ |- _ =>
        destruct (send_counter p s c m) as [[s1 r]|] eqn:E; [|done];
        apply send_counter_eq in E as (x & x' & Hx & Hh & ->); try destruct r
    | H : (let '(_, _) := ?x in _) = Some _ |- _ => destruct x as [s1 o1] eqn:E
    end; try (injection Hs as <- <-); try done;
    pose proof (m_handle_frame _ _ _ _ _ E) as (_ & _ & -> & _); done.
  - destruct (my_ctrs s !! c); [|done]. destruct (counter_fire _ _ _); [|done]. by injection Hs as <- <-.
  - destruct (send_counter p s c _) as [[s1 r]|] eqn:E; [|done].
    apply send_counter_eq in E as (x & x' & Hx & Hh & ->). by injection Hs as <- <-.
  - injection Hs as <- <-. cbn. lia.
Qed.

Lemma run_loops p t gc es s tr :
  m_run p (m_start t gc) es = Some (s, tr) -> my_alive s = true ->
  my_gc s = gc /\
  (exists ts, NoDup ts /\ length ts = S (cleanups_asked es) /\ forall w, w ∈ ts <-> loop_at s w) /\
  (forall w due, my_tasks s !! w = Some (TWake due) -> due <= my_now s + gc * NS).
Proof.
  revert s tr. induction es as [|e es IH] using rev_ind; intros s tr Hr Ha.
  - injection Hr as <- <-. split; [done|]. split.
    + exists [0%nat]. split; [apply NoDup_singleton|]. split; [done|]. intros w. rewrite elem_of_list_singleton.
      unfold loop_at. cbn. split.
      * intros ->. rewrite lookup_singleton. by eexists.
      * intros (x & Hx & _). by apply lookup_singleton_Some in Hx as [<- _].
    + cbn. intros w due [_ [= <-]]%lookup_singleton_Some. lia.
  - apply m_run_snoc in Hr as (s1 & tr1 & o & H1 & H2 & ->). pose proof (run_inv _ _ _ _ _ _ H1) as Hi.
    destruct (m_step_loops _ _ _ _ _ Hi Ha H2) as (Ha1 & Hg & Hl & Hw).
    destruct (IH _ _ H1 Ha1) as (Hg1 & (ts & Hnd & Hlen & Hts) & Hd). pose proof (m_step_now _ _ _ _ _ H2) as Hnow.
    assert (my_next s1 ∉ ts) as Hnew.
    { rewrite Hts. intros (x & Hx & _). rewrite fresh_task in Hx by done. done. }
    assert (forall b, asks_cleanup e = b -> cleanups_asked (es ++ [e]) = (cleanups_asked es + if b then 1 else 0)%nat) as Hn.
    { intros b Hb. unfold cleanups_asked. rewrite List.filter_app, app_length. cbn. rewrite Hb. by destruct b. }
    split; [congruence|]. split.
    + destruct Hl as [[-> Hl]|[(He & w & Hw1 & Hw2 & Hl)|[He Hl]]].
      * exists (my_next s1 :: ts). split; [by constructor|]. split; [cbn; rewrite (Hn true); [lia|done]|].
        intros w. rewrite elem_of_cons, Hl, Hts. done.
      * assert (asks_cleanup e = false) as Hf by (destruct e as [[]| | | |]; done).
        apply Hts in Hw1. apply elem_of_list_split in Hw1 as (l1 & l2 & ->).
        exists (my_next s1 :: l1 ++ l2).
        assert (NoDup (w :: l1 ++ l2)) as Hnd' by (by rewrite <- Permutation_middle in Hnd).
        apply NoDup_cons in Hnd' as [Hw' Hnd']. split.
        { constructor; [|done]. intros Hin. apply Hnew. rewrite <- Permutation_middle. by right. }
        split. { rewrite (Hn false Hf). cbn. rewrite app_length in *. cbn in Hlen. lia. }
        intros w'. rewrite elem_of_cons, Hl, <- Hts. rewrite <- Permutation_middle, elem_of_cons. split.
        -- intros [->|Hin]; [by left|]. right. split; [by right|]. intros ->. done.
        -- intros [->|[[->|Hin] Hne]]; [by left|done|by right].
      * assert (asks_cleanup e = false) as Hf by (destruct e as [[]| | | |]; done).
        exists ts. split; [done|]. split; [rewrite (Hn false Hf); lia|]. intros w. by rewrite Hts, Hl.
    + intros w due Hwk. destruct (Hw _ _ Hwk) as [Hwk1| ->].
      * specialize (Hd _ _ Hwk1). lia.
      * rewrite Hg1. lia.
Qed.

(** All loops that sleep and are due begin a pass. *)
Lemma wake_all p ts s :
  minv s -> my_alive s = true -> NoDup ts ->
  (forall w, w ∈ ts -> exists due, my_tasks s !! w = Some (TWake due) /\ due <= my_now s) ->
  exists s' o, m_run p s (MeTask <$> ts) = Some (s', o) /\ handled o = replicate (length ts) RqCleanUp.
Proof.
  revert s. induction ts as [|w ts IH]; intros s Hi Ha Hnd Hw; [by exists s, []|].
  apply NoDup_cons in Hnd as [Hn Hnd]. destruct (Hw w) as (due & Ht & Hd); [by left|].
  set (s1 := spawn (end_task s w) (TClean (sites_iter (my_sites s)) PCount)).
  assert (m_step p s (MeTask w) = Some (s1, [MoHandle RqCleanUp])) as H1.
  { cbn [m_step]. rewrite Ha. unfold task_step. rewrite Ht. by replace (due <=? my_now s) with true by lia. }
  destruct (IH s1) as (s' & o & Hr & Ho).
  { by eapply m_step_inv. } { done. } { done. }
  { intros w' Hin. destruct (Hw w') as (due' & Ht' & Hd'); [by right|]. exists due'. split; [|done].
    unfold s1. cbn. destruct (mv_task _ Hi _ _ Ht') as (Hlt & _). rewrite lookup_insert_ne by lia.
    rewrite lookup_delete_ne; [done|]. by intros ->. }
  exists s', (MoHandle RqCleanUp :: o). split.
  - rewrite fmap_cons. by apply (run_cons _ _ _ _ _ _ _ _ H1 Hr).
  - cbn [length replicate]. rewrite <- Ho. done.
Qed.
