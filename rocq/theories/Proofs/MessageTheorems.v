(** Proofs of the theorems of Properties/MessageProperties.v. *)
From Coq Require Import Lia.
From Verif Require Import Model.Base Model.Defense Model.MCaptcha Model.HashCache Model.Errors Model.Builders Spec.MessageSpec.

Lemma app_inj_l (a s t : string) : a +:+ s = a +:+ t -> s = t.
Proof. induction a as [|c a IH]; cbn; [done|]. intros [= H]. by apply IH. Qed.

Lemma length_app (a b : string) : String.length (a +:+ b) = (String.length a + String.length b)%nat.
Proof. induction a as [|c a IH]; [done|]. change (S (String.length (a +:+ b)) = S (String.length a + String.length b))%nat. by rewrite IH. Qed.

Lemma app_inj_r (s t b : string) : s +:+ b = t +:+ b -> s = t.
Proof.
  revert t. induction s as [|c s IH]; intros [|d t] H; cbn in H; [done| | |].
  - apply (f_equal String.length) in H. change (String.length b = S (String.length (t +:+ b))) in H. rewrite length_app in H. exfalso. clear -H. lia.
  - apply (f_equal String.length) in H. change (S (String.length (s +:+ b)) = String.length b) in H. rewrite length_app in H. exfalso. clear -H. lia.
  - injection H as -> H. f_equal. by apply IH.
Qed.

Lemma c93_duration_text_refuted : forall d,
  exists e, mb_build (mb_set_duration (mb_set_defense mb_default d) 0) = Err e /\
    e <> DifficultyFactorZero /\ display e = display DifficultyFactorZero.
Proof. intros d. by exists CaptchaDurationZero. Qed.

Lemma c93_texts_differ : forall e e',
  ~ foreign e -> ~ foreign e' -> display e = display e' ->
  e = e' \/ (e = DifficultyFactorZero /\ e' = CaptchaDurationZero) \/ (e = CaptchaDurationZero /\ e' = DifficultyFactorZero).
Proof.
  intros e e' Hf Hf' H.
  destruct e, e';
    try match goal with H : ~ foreign (RedisError ?s) |- _ => exfalso; apply H; exists s; reflexivity end;
    first [by left | by right; left | by right; right | discriminate H | idtac].
  - left. f_equal. unfold display in H. match type of H with ?a +:+ ?x = ?a +:+ ?y => exact (app_inj_l a x y H) end.
  - left. f_equal. unfold display in H. do 5 (match type of H with ?a +:+ ?x = ?a +:+ ?y => apply (app_inj_l a x y) in H end).
    match type of H with ?x +:+ ?b = ?y +:+ ?b => exact (app_inj_r x y b H) end.
Qed.

Lemma given_snoc {C A} (get : C -> option A) cs c v :
  given get (cs ++ [c]) v <-> get c = Some v \/ (get c = None /\ given get cs v).
Proof.
  split.
  - intros (pre & x & post & He & Hx & Hp). induction post as [|y post _] using rev_ind.
    + apply app_inj_tail in He as [-> ->]. by left.
    + right. rewrite app_comm_cons, app_assoc in He. apply app_inj_tail in He as [-> ->]. split.
      * apply Hp. set_solver.
      * exists pre, x, post. split; [done|]. split; [done|]. intros c' Hc. apply Hp. set_solver.
  - intros [H|(H & pre & x & post & -> & Hx & Hp)].
    + exists cs, c, []. split; [done|]. split; [done|]. intros c' Hc. by apply elem_of_nil in Hc.
    + exists pre, x, (post ++ [c]). split; [by rewrite <- app_assoc|]. split; [done|].
      intros c' [Hc| ->%elem_of_list_singleton]%elem_of_app; [by apply Hp|done].
Qed.

Lemma never_snoc {C A} (get : C -> option A) cs c :
  never_given get (cs ++ [c]) <-> get c = None /\ never_given get cs.
Proof.
  unfold never_given. split.
  - intros H. split; [apply H; set_solver|]. intros x Hx. apply H. set_solver.
  - intros [H1 H2] x [Hx| ->%elem_of_list_singleton]%elem_of_app; [by apply H2|done].
Qed.

(** A field of a builder that the setters treat as [Option]. *)
Lemma field_spec {C A B} (get : C -> option A) (set : B -> C -> B) (b0 : B) (f : B -> option A) :
  f b0 = None -> (forall b c, f (set b c) = match get c with Some v => Some v | None => f b end) ->
  forall cs, (forall v, f (fold_left set cs b0) = Some v <-> given get cs v) /\
             (f (fold_left set cs b0) = None <-> never_given get cs).
Proof.
  intros H0 Hs cs. induction cs as [|c cs [IH1 IH2]] using rev_ind.
  - cbn. rewrite H0. split.
    + intros v. split; [done|]. intros (pre & x & post & He & _). by destruct pre.
    + split; [|done]. intros _ c Hc. by apply elem_of_nil in Hc.
  - rewrite fold_left_app. cbn [fold_left]. rewrite Hs. split.
    + intros v. rewrite given_snoc, <- IH1. destruct (get c) as [w|]; [|naive_solver].
      split; [intros [= ->]; by left|]. by intros [[= ->]|[? _]].
    + rewrite never_snoc, <- IH2. destruct (get c); naive_solver.
Qed.

Lemma c94_cache_pow : forall cs,
  (forall m, pb_build (pb_run cs) = Built m <->
     given pow_string cs (cp_string m) /\ given pow_difficulty cs (cp_difficulty_factor m) /\
     given pow_duration cs (cp_duration m) /\ given pow_key cs (cp_key m)) /\
  ((exists f, pb_build (pb_run cs) = Uninitialized f) <->
     never_given pow_string cs \/ never_given pow_difficulty cs \/ never_given pow_duration cs \/ never_given pow_key cs) /\
  (forall f, pb_build (pb_run cs) = Uninitialized f ->
     (f = "string"%string /\ never_given pow_string cs) \/
     (f = "difficulty_factor"%string /\ never_given pow_difficulty cs) \/
     (f = "duration"%string /\ never_given pow_duration cs) \/
     (f = "key"%string /\ never_given pow_key cs)).
Proof.
  intros cs.
  destruct (field_spec pow_string pb_set (CachePoWBuilder None None None None) pb_string eq_refl ltac:(by intros [] []) cs) as [S1 S2].
  destruct (field_spec pow_difficulty pb_set (CachePoWBuilder None None None None) pb_difficulty_factor eq_refl ltac:(by intros [] []) cs) as [F1 F2].
  destruct (field_spec pow_duration pb_set (CachePoWBuilder None None None None) pb_duration eq_refl ltac:(by intros [] []) cs) as [D1 D2].
  destruct (field_spec pow_key pb_set (CachePoWBuilder None None None None) pb_key eq_refl ltac:(by intros [] []) cs) as [K1 K2].
  fold (pb_run cs) in *. split; [|split].
  - intros [s f d k]. cbn [cp_string cp_difficulty_factor cp_duration cp_key].
    rewrite <- S1, <- F1, <- D1, <- K1. unfold pb_build, field. repeat case_match; naive_solver congruence.
  - rewrite <- S2, <- F2, <- D2, <- K2. unfold pb_build, field. repeat case_match; naive_solver.
  - intros f. rewrite <- S2, <- F2, <- D2, <- K2. unfold pb_build, field. repeat case_match; naive_solver.
Qed.

Lemma c94_cache_result : forall cs,
  (forall m, rb_build (rb_run cs) = Built m <->
     given res_token cs (cr_token m) /\ given res_key cs (cr_key m) /\ given res_duration cs (cr_duration m)) /\
  ((exists f, rb_build (rb_run cs) = Uninitialized f) <->
     never_given res_token cs \/ never_given res_key cs \/ never_given res_duration cs) /\
  (forall f, rb_build (rb_run cs) = Uninitialized f ->
     (f = "token"%string /\ never_given res_token cs) \/
     (f = "key"%string /\ never_given res_key cs) \/
     (f = "duration"%string /\ never_given res_duration cs)).
Proof.
  intros cs.
  destruct (field_spec res_token rb_set (CacheResultBuilder None None None) rb_token eq_refl ltac:(by intros [] []) cs) as [S1 S2].
  destruct (field_spec res_key rb_set (CacheResultBuilder None None None) rb_key eq_refl ltac:(by intros [] []) cs) as [F1 F2].
  destruct (field_spec res_duration rb_set (CacheResultBuilder None None None) rb_duration eq_refl ltac:(by intros [] []) cs) as [D1 D2].
  fold (rb_run cs) in *. split; [|split].
  - intros [t k d]. cbn [cr_token cr_key cr_duration].
    rewrite <- S1, <- F1, <- D1. unfold rb_build, field. repeat case_match; naive_solver congruence.
  - rewrite <- S2, <- F2, <- D2. unfold rb_build, field. repeat case_match; naive_solver.
  - intros f. rewrite <- S2, <- F2, <- D2. unfold rb_build, field. repeat case_match; naive_solver.
Qed.

Lemma c94_add_site : forall cs,
  (forall id m, ab_build (ab_run cs) = Built (id, m) <-> given add_id cs id /\ given add_mcaptcha cs m) /\
  ((exists f, ab_build (ab_run cs) = Uninitialized f) <-> never_given add_id cs \/ never_given add_mcaptcha cs) /\
  (forall f, ab_build (ab_run cs) = Uninitialized f ->
     (f = "id"%string /\ never_given add_id cs) \/
     (f = "mcaptcha"%string /\ never_given add_mcaptcha cs)).
Proof.
  intros cs.
  destruct (field_spec add_id ab_set (AddSiteBuilder None None) ab_id eq_refl ltac:(by intros [] []) cs) as [S1 S2].
  destruct (field_spec add_mcaptcha ab_set (AddSiteBuilder None None) ab_mcaptcha eq_refl ltac:(by intros [] []) cs) as [F1 F2].
  fold (ab_run cs) in *. split; [|split].
  - intros id m. rewrite <- S1, <- F1. unfold ab_build, field. repeat case_match; naive_solver congruence.
  - rewrite <- S2, <- F2. unfold ab_build, field. repeat case_match; naive_solver.
  - intros f. rewrite <- S2, <- F2. unfold ab_build, field. repeat case_match; naive_solver.
Qed.

Lemma c94_rename : forall cs,
  (forall a b, nb_build (nb_run cs) = Built (a, b) <-> given ren_name cs a /\ given ren_to cs b) /\
  ((exists f, nb_build (nb_run cs) = Uninitialized f) <-> never_given ren_name cs \/ never_given ren_to cs) /\
  (forall f, nb_build (nb_run cs) = Uninitialized f ->
     (f = "name"%string /\ never_given ren_name cs) \/
     (f = "rename_to"%string /\ never_given ren_to cs)).
Proof.
  intros cs.
  destruct (field_spec ren_name nb_set (RenameBuilder None None) nb_name eq_refl ltac:(by intros [] []) cs) as [S1 S2].
  destruct (field_spec ren_to nb_set (RenameBuilder None None) nb_rename_to eq_refl ltac:(by intros [] []) cs) as [F1 F2].
  fold (nb_run cs) in *. split; [|split].
  - intros a b. rewrite <- S1, <- F1. unfold nb_build, field. repeat case_match; naive_solver congruence.
  - rewrite <- S2, <- F2. unfold nb_build, field. repeat case_match; naive_solver.
  - intros f. rewrite <- S2, <- F2. unfold nb_build, field. repeat case_match; naive_solver.
Qed.

Lemma c94_own_use : forall c token, exists r,
  cached_into_result_built c token = Val r /\ r = cached_into_result c token /\
  cr_token r = token /\ cr_key r = cc_key c /\ cr_duration r = cc_duration c.
Proof. intros c token. by exists (CacheResult token (cc_key c) (cc_duration c)). Qed.
