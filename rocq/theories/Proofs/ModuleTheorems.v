(** Proofs of the theorems of Properties/ModuleProperties.v. *)
From Coq Require Import ZifyBool ZifyN ZifyNat Lia.
From Verif Require Import Model.Base Model.Defense Model.MCaptcha Model.HashCache Model.Json Model.Serde
  Model.Redis Model.RedisActor Model.Master Spec.DefenseSpec Spec.SerdeSpec Spec.MasterSpec Spec.ModuleSpec
  Proofs.JsonProofs Proofs.SerdeProofs Proofs.ModuleProofs.

Lemma c90_answers : forall h x,
  Forall (fun x => ok_ask (ex_ask x)) (x :: h) -> honest_module (x :: h) ->
  exists y, ex_answer x = Some (Val y) /\
    (forall e, ex_seen x = RrErr e -> failed_with e y) /\
    (forall v, ex_seen x = RrVal v -> right_answer (carried_out h) (ex_ask x) y).
Proof.
  intros h x Hok [_ Hx]. apply Forall_cons in Hok as [_ Hok]. apply carried_ok in Hok. unfold ex_answer.
  destruct (ex_seen x) as [v|e] eqn:Hs.
  - assert (ex_reply x = RrVal v) as Hr by (unfold ex_seen in Hs; by destruct (ex_lost x)).
    destruct (Hx v Hr) as (w & Hw & Hh). rewrite ex_word_of in Hw. injection Hw as <-. rewrite words_of in Hh.
    destruct (answer_right _ _ _ Hok Hh) as (y & Hy & Hright). exists y. split; [done|]. split; [done|].
    by intros v' [= <-].
  - destruct (answer_failed (ex_ask x) e) as (y & Hy & Hf). exists y. split; [done|].
    split; [by intros e' [= <-]|done].
Qed.

Lemma c90_served : forall h x,
  Forall (fun x => ok_ask (ex_ask x)) h ->
  exists w, ex_word x = Some w /\ (able (words h) w <-> asks_for (carried_out h) (ex_ask x)).
Proof.
  intros h x Hok. exists (word_of (ex_ask x)). rewrite ex_word_of, words_of. split; [done|].
  by apply able_there, carried_ok.
Qed.

(** C91: which site a name stands for is the same as with the embedded Master:
    after the same messages, the registration found under a name there is the
    configuration found under it here. *)
Lemma registrations_omap h :
  registrations h = length (omap (fun r => match r with RqAddSite _ m => Some m | _ => None end) (reverse h)).
Proof.
  unfold registrations. induction h as [|r h IH]; [done|]. rewrite reverse_cons, omap_app, app_length. cbn [omap list_omap].
  rewrite <- IH. destruct r; cbn; lia.
Qed.

Lemma configured_mono h r k m : configured h k = Some m -> configured (r :: h) k = Some m.
Proof. unfold configured. intros H. rewrite reverse_cons, omap_app. by apply lookup_app_l_Some. Qed.

Lemma same_site h id :
  match site_under h id, bound (omap to_master h) id with
  | Some (m, _), Some k => configured (omap to_master h) k = Some m
  | None, None => True
  | _, _ => False
  end.
Proof.
  revert id. induction h as [|a h IH]; intros id; [done|].
  assert (Hmono : forall r id', match site_under h id', bound (omap to_master h) id' with
    | Some (m, _), Some k => configured (r :: omap to_master h) k = Some m
    | None, None => True | _, _ => False end).
  { intros r id'. specialize (IH id'). destruct (site_under h id') as [[m n]|], (bound (omap to_master h) id') as [k|]; try done.
    by apply configured_mono. }
  destruct a; cbn [site_under omap list_omap to_master bound]; try apply IH.
  - specialize (Hmono (RqAddVisitor id0) id). destruct (site_under h id) as [[m n]|]; [|done].
    destruct (bound (omap to_master h) id); done.
  - destruct (String.eqb id id0); [|apply Hmono]. unfold configured. rewrite reverse_cons, omap_app.
    rewrite registrations_omap. cbn [omap list_omap]. by rewrite list_lookup_middle.
  - pose proof (Hmono (RqRename a b) a) as Ha. pose proof (Hmono (RqRename a b) id) as Hid.
    destruct (site_under h a) as [[m n]|], (bound (omap to_master h) a) as [k|]; try done.
    destruct (String.eqb id b); [done|]. by destruct (String.eqb id a).
  - destruct (String.eqb id id0); [done|apply Hmono].
Qed.

Lemma c91_same_names : forall h id,
  let seen := omap to_master h in
  (forall m k, site_under h id = Some (m, k) -> exists n, bound seen id = Some n /\ configured seen n = Some m) /\
  (forall n, bound seen id = Some n -> exists m k, site_under h id = Some (m, k)).
Proof.
  intros h id. cbn zeta. pose proof (same_site h id) as H. split.
  - intros m k Hs. rewrite Hs in H. destruct (bound (omap to_master h) id) as [n|]; [|done]. by exists n.
  - intros n Hb. rewrite Hb in H. destruct (site_under h id) as [[m k]|]; [|done]. by exists m, k.
Qed.

Lemma honest_cons x h : honest_module h ->
  (forall v, ex_reply x = RrVal v -> honest (words h) (word_of (ex_ask x)) v) -> honest_module (x :: h).
Proof. intros Hh Hx. split; [done|]. intros v Hv. eexists. split; [apply ex_word_of|]. by apply Hx. Qed.
