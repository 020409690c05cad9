(** Calls on Systems over one Redis whose module does what its commands say. *)
From Coq Require Import ZifyBool ZifyN ZifyNat Lia.
From Verif Require Import Model.Base Model.Defense Model.MCaptcha Model.HashCache Model.Pow Model.Redis Model.RedisActor
  Model.System Model.SystemProgram Model.SystemShared Spec.ProgramSpec Spec.SharedSpec Spec.ModuleSpec Spec.MergedSpec
  Proofs.ModuleProofs Proofs.ProgramProofs Proofs.SharedProofs.

Definition right_log (l : list exchange) : Prop := Forall (fun x => ok_ask (ex_ask x)) l /\ honest_module l.
Lemma right_tail l1 l2 : right_log (l2 ++ l1) -> right_log l1.
Proof.
  intros [Hok Hh]. split; [by apply Forall_app in Hok as [_ ?]|].
  induction l2 as [|x l2 IH]; [done|]. cbn in Hh. apply IH; [|apply Hh]. by apply Forall_cons in Hok as [_ ?].
Qed.

(** What came before an event. *)
Lemma merged_at tr l tr1 o tr2 : merged tr l -> tr = tr1 ++ o :: tr2 ->
  exists l1 l2, merged tr1 l1 /\ l = l2 ++ l1 /\
    (module_request o = None \/ left_alone o \/
     exists x l3, l2 = l3 ++ [x] /\ module_request o = Some (ex_ask x) /\ told_by o x).
Proof.
  intros H. revert tr1 o tr2.
  assert (Hsnoc : forall tr tr1 (o o' : shout) tr2, tr ++ [o] = tr1 ++ o' :: tr2 ->
    (tr = tr1 /\ o = o' /\ tr2 = []) \/ exists tr3, tr2 = tr3 ++ [o] /\ tr = tr1 ++ o' :: tr3).
  { intros tr0 tr1 o o' tr2 E. destruct tr2 as [|y tr3 _] using rev_ind.
    - apply app_inj_tail in E as [-> ->]. by left.
    - rewrite app_comm_cons, app_assoc in E. apply app_inj_tail in E as [-> ->]. right. by exists tr3. }
  induction H as [|tr l o H IH Hq|tr l o H IH Hq|tr l o x H IH Hq Ht|tr l o x H IH Hin Hq Ht|tr l x H IH Hx]; intros tr1 o' tr2 E.
  - by destruct tr1.
  - apply Hsnoc in E as [(-> & -> & ->)|(tr3 & -> & ->)]; [|by apply (IH _ _ _ eq_refl)].
    exists l, []. split; [done|]. split; [done|]. by left.
  - apply Hsnoc in E as [(-> & -> & ->)|(tr3 & -> & ->)]; [|by apply (IH _ _ _ eq_refl)].
    exists l, []. split; [done|]. split; [done|]. by right; left.
  - apply Hsnoc in E as [(-> & -> & ->)|(tr3 & -> & ->)].
    + exists l, [x]. split; [done|]. split; [done|]. right. destruct Ht as [Ht|Ht]; [by left|]. right. by exists x, [].
    + destruct (IH _ _ _ eq_refl) as (l1 & l2 & H1 & -> & H2). exists l1, (x :: l2). split; [done|]. split; [done|].
      destruct H2 as [H2|[H2|(y & l3 & -> & H2)]]; [by left|by right; left|]. right; right. by exists y, (x :: l3).
  - destruct (IH _ _ _ E) as (l1 & l2 & H1 & -> & H2). exists l1, (x :: l2). split; [done|]. split; [done|].
    destruct H2 as [H2|[H2|(y & l3 & -> & H2)]]; [by left|by right; left|]. right; right. by exists y, (x :: l3).
  - destruct (IH _ _ _ E) as (l1 & l2 & H1 & -> & H2). exists l1, (x :: l2). split; [done|]. split; [done|].
    destruct H2 as [H2|[H2|(y & l3 & -> & H2)]]; [by left|by right; left|]. right; right. by exists y, (x :: l3).
Qed.

Lemma answered_ok l x y : right_log (x :: l) -> ex_answer x = Some (Val y) -> (forall e, ~ failed_with e y) ->
  obeyed x = true /\ right_answer (carried_out l) (ex_ask x) y.
Proof.
  intros [Hok [_ Hx]] Hy Hf. apply Forall_cons in Hok as [_ Hok]. apply carried_ok in Hok. unfold ex_answer in Hy.
  destruct (ex_seen x) as [v|e] eqn:Hs.
  - assert (ex_reply x = RrVal v) as Hr by (unfold ex_seen in Hs; by destruct (ex_lost x)).
    destruct (Hx v Hr) as (w & Hw & Hh). rewrite ex_word_of in Hw. injection Hw as <-. rewrite words_of in Hh.
    destruct (answer_right _ _ _ Hok Hh) as (y' & Hy' & Hright). rewrite Hy in Hy'. injection Hy' as <-.
    split; [|done]. unfold obeyed. by rewrite Hr.
  - destruct (answer_failed (ex_ask x) e) as (y' & Hy' & Hf'). rewrite Hy in Hy'. injection Hy' as <-. by destruct (Hf e).
Qed.

(** The challenge the module has is the last one stored by a call. *)
Definition caches (key s : string) (o : shout) : Prop :=
  exists n t m f, o = XoDid n t (PeCachePoW m (An (Ok tt))) f /\ cp_key m = key /\ cp_string m = s.
Lemma issued_by tr l key s m : merged tr l -> right_log l -> last_issued (carried_out l) key s = Some m ->
  exists tra n t a f trb, tr = tra ++ XoDid n t (PeCachePoW m a) f :: trb /\ cp_key m = key /\ cp_string m = s /\
    (left_alone (XoDid n t (PeCachePoW m a) f) \/ forall o, o ∈ trb -> ~ caches key s o).
Proof.
  intros H. induction H as [|tr l o H IH Hq|tr l o H IH Hq|tr l o x H IH Hq Ht|tr l o x H IH Hin Hq Ht|tr l x H IH Hx]; intros Hl Hi.
  - done.
  - destruct (IH Hl Hi) as (tra & n & t & a & f & trb & -> & Hk & Hs & Hlate). exists tra, n, t, a, f, (trb ++ [o]).
    rewrite <- app_assoc. split; [done|]. do 2 (split; [done|]).
    destruct Hlate as [Hlate|Hlate]; [by left|right].
    intros o' [Ho|Ho%elem_of_list_singleton]%elem_of_app; [by apply Hlate|subst o'].
    intros (n' & t' & m' & f' & -> & _). done.
  - destruct (IH Hl Hi) as (tra & n & t & a & f & trb & -> & Hk & Hs & Hlate). exists tra, n, t, a, f, (trb ++ [o]).
    rewrite <- app_assoc. split; [done|]. do 2 (split; [done|]).
    destruct Hlate as [Hlate|Hlate]; [by left|right].
    intros o' [Ho|Ho%elem_of_list_singleton]%elem_of_app; [by apply Hlate|subst o'].
    intros (n' & t' & m' & f' & -> & _). cbn in Hq. by destruct (Hq tt).
  - assert (Hl' : right_log l) by by apply (right_tail l [x]).
    assert (Hkeep : last_issued (carried_out l) key s = Some m -> ~ caches key s o ->
      exists tra n t a f trb, tr ++ [o] = tra ++ XoDid n t (PeCachePoW m a) f :: trb /\ cp_key m = key /\ cp_string m = s /\
        (left_alone (XoDid n t (PeCachePoW m a) f) \/ forall o, o ∈ trb -> ~ caches key s o)).
    { intros Hi' Ho. destruct (IH Hl' Hi') as (tra & n & t & a & f & trb & -> & Hk & Hs & Hlate).
      exists tra, n, t, a, f, (trb ++ [o]). rewrite <- app_assoc. split; [done|]. do 2 (split; [done|]).
      destruct Hlate as [Hlate|Hlate]; [by left|right].
      intros o' [Hin|Hin%elem_of_list_singleton]%elem_of_app; [by apply Hlate|by subst o']. }
    unfold carried_out in Hi. cbn [List.filter] in Hi. destruct (obeyed x) eqn:Ho; cycle 1.
    { apply Hkeep; [done|]. intros (n & t & m' & f & -> & Hk & Hs).
      destruct Ht as [Ht|Ht]; [by destruct (Ht tt)|]. cbn in Ht.
      destruct (answered_ok l x (RoUnit (Ok tt)) Hl Ht) as [Hob _]; [by intros e ?|]. congruence. }
    cbn [fmap list_fmap] in Hi. destruct o as [|n t e f| | | |]; try done.
    destruct e as [id a|r|m' a|q a|ip q a|q b|m' a|m' a]; try done; injection Hq as Hq; rewrite <- Hq in Hi; cbn [last_issued] in Hi.
    + apply Hkeep; [done|]. by intros (? & ? & ? & ? & [=] & _).
    + destruct (String.eqb key (cp_key m') && String.eqb s (cp_string m')) eqn:E.
      * injection Hi as ->. apply andb_prop in E as [E1%String.eqb_eq E2%String.eqb_eq].
        exists tr, n, t, a, f, []. do 3 (split; [done|]). right. intros o' []%elem_of_nil.
      * apply Hkeep; [done|]. intros (? & ? & ? & ? & [= _ _ <- _ _] & Hk & Hs).
        by rewrite Hk, Hs, !String.eqb_refl in E.
    + apply Hkeep; [done|]. by intros (? & ? & ? & ? & [=] & _).
  - assert (Hl' : right_log l) by by apply (right_tail l [x]).
    unfold carried_out in Hi. cbn [List.filter] in Hi. destruct (obeyed x); [|by apply IH]. cbn [fmap list_fmap] in Hi.
    destruct o as [|n t e f| | | |]; try done.
    destruct e as [id a|r|m' a|q a|ip q a|q b|m' a|m' a]; try done; injection Hq as Hq; rewrite <- Hq in Hi; cbn [last_issued] in Hi.
    + by apply IH.
    + destruct (String.eqb key (cp_key m') && String.eqb s (cp_string m')) eqn:E; [|by apply IH].
      injection Hi as ->. apply andb_prop in E as [E1%String.eqb_eq E2%String.eqb_eq].
      apply elem_of_list_split in Hin as (tra & trb & ->). exists tra, n, t, a, f, trb. do 3 (split; [done|]). by left.
    + apply IH; [done|]. by destruct (String.eqb key (vr_key q) && String.eqb s (vr_token q)).
  - assert (Hl' : right_log l) by by apply (right_tail l [x]). apply IH; [done|].
    unfold carried_out in Hi. cbn [List.filter] in Hi. destruct (obeyed x); [|done]. cbn [fmap list_fmap] in Hi.
    destruct (ex_ask x) as [| | | |m'| | | |q]; cbn [last_issued] in Hi; try done; [by destruct (Hx m')|].
    by destruct (String.eqb key (vr_key q) && String.eqb s (vr_token q)).
Qed.

(** A visit was told a level of the site then under the name. *)
Lemma visit_level tr l tr1 n t id v f tr2 : merged tr l -> right_log l ->
  tr = tr1 ++ XoDid n t (PeVisit id (An (Ok (Some v)))) f :: tr2 ->
  exists l1 l2 site k lv, l = l2 ++ l1 /\ merged tr1 l1 /\ site_under (carried_out l1) id = Some (site, k) /\
    lv ∈ d_levels (m_defense site) /\ v = AddVisitorResult (m_duration site) (difficulty_factor lv).
Proof.
  intros Hm Hl E. destruct (merged_at _ _ _ _ _ Hm E) as (l1 & l2 & H1 & -> & [H2|[H2|(x & l3 & -> & Hq & Ht)]]).
  - done.
  - cbn in H2. by destruct (H2 (Some v)).
  - rewrite <- app_assoc in Hl. apply right_tail in Hl. cbn in Hl. cbn in Hq, Ht. injection Hq as Hq.
    destruct (answered_ok l1 x _ Hl Ht) as [_ Hr]; [by intros e ?|]. rewrite <- Hq in Hr.
    destruct Hr as (site & k & lv & Hs & Hlv & Hv). injection Hv as Hv.
    exists l1, (l3 ++ [x]), site, k, lv. done.
Qed.
(** A challenge was given out as stored. *)
Lemma retrieve_stored tr l tr1 n t q cfg f tr2 : merged tr l -> right_log l ->
  tr = tr1 ++ XoDid n t (PeRetrieve q (An (Ok (Some cfg)))) f :: tr2 ->
  exists tra n' t' m a f' trb, tr1 = tra ++ XoDid n' t' (PeCachePoW m a) f' :: trb /\
    cp_key m = vr_key q /\ cp_string m = vr_token q /\
    cfg = CachedPoWConfig (vr_key q) (cp_difficulty_factor m) (cp_duration m) /\
    (left_alone (XoDid n' t' (PeCachePoW m a) f') \/ forall o, o ∈ trb -> ~ caches (vr_key q) (vr_token q) o).
Proof.
  intros Hm Hl E. destruct (merged_at _ _ _ _ _ Hm E) as (l1 & l2 & H1 & -> & [H2|[H2|(x & l3 & -> & Hq & Ht)]]).
  - done.
  - cbn in H2. by destruct (H2 (Some cfg)).
  - rewrite <- app_assoc in Hl. apply right_tail in Hl. cbn in Hl. cbn in Hq, Ht. injection Hq as Hq.
    destruct (answered_ok l1 x _ Hl Ht) as [_ Hr]; [by intros e ?|]. rewrite <- Hq in Hr.
    destruct Hr as (m & Hi & Hc). injection Hc as ->.
    destruct (issued_by _ _ _ _ _ H1 (right_tail l1 [x] Hl) Hi) as (tra & n' & t' & a & f' & trb & -> & Hk & Hs & Hlate).
    exists tra, n', t', m, a, f', trb. done.
Qed.
