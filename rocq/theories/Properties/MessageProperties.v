(** C93, C94: texts of errors; builders of messages. *)
From Coq Require Import Lia.
From Verif Require Import Model.Base Model.Defense Model.MCaptcha Model.HashCache Model.Errors Model.Builders Spec.MessageSpec.
From Verif Require Export Proofs.MessageTheorems.

(** ** C93 *)

(** A site with duration zero is refused with the text about difficulty factors. *)
Theorem C93_duration_text_refuted : forall d,
  exists e, mb_build (mb_set_duration (mb_set_defense mb_default d) 0) = Err e /\
    e <> DifficultyFactorZero /\ display e = display DifficultyFactorZero.
Proof. exact c93_duration_text_refuted. Qed.
Print Assumptions C93_duration_text_refuted.

(** These two are the only ones: any other two errors differ in their texts. *)
Theorem C93_texts_differ : forall e e',
  ~ foreign e -> ~ foreign e' -> display e = display e' ->
  e = e' \/ (e = DifficultyFactorZero /\ e' = CaptchaDurationZero) \/ (e = CaptchaDurationZero /\ e' = DifficultyFactorZero).
Proof. exact c93_texts_differ. Qed.
Print Assumptions C93_texts_differ.

Example C93_witness :
  ~ foreign (PleaseSetValue "duration") /\ ~ foreign (PleaseSetValue "defense") /\
  display (PleaseSetValue "duration") <> display (PleaseSetValue "defense") /\
  display (PleaseSetValue "duration") = "Please set value: duration"%string.
Proof. split; [by intros [s H]|]. split; [by intros [s H]|]. by split. Qed.

(** ** C94 *)

Theorem C94_cache_pow : forall cs,
  (forall m, pb_build (pb_run cs) = Built m <->
     given pow_string cs (cp_string m) /\ given pow_difficulty cs (cp_difficulty_factor m) /\
     given pow_duration cs (cp_duration m) /\ given pow_key cs (cp_key m)) /\
  ((exists f, pb_build (pb_run cs) = Uninitialized f) <->
     never_given pow_string cs \/ never_given pow_difficulty cs \/ never_given pow_duration cs \/ never_given pow_key cs) /\
  (forall f, pb_build (pb_run cs) = Uninitialized f ->
     (f = "string"%string /\ never_given pow_string cs) \/
     (f = "difficulty_factor"%string /\ never_given pow_difficulty cs) \/
     (f = "duration"%string /\ never_given pow_duration cs) \/
     (f = "key"%string /\ never_given pow_key cs)).
Proof. exact c94_cache_pow. Qed.
Print Assumptions C94_cache_pow.

Theorem C94_cache_result : forall cs,
  (forall m, rb_build (rb_run cs) = Built m <->
     given res_token cs (cr_token m) /\ given res_key cs (cr_key m) /\ given res_duration cs (cr_duration m)) /\
  ((exists f, rb_build (rb_run cs) = Uninitialized f) <->
     never_given res_token cs \/ never_given res_key cs \/ never_given res_duration cs) /\
  (forall f, rb_build (rb_run cs) = Uninitialized f ->
     (f = "token"%string /\ never_given res_token cs) \/
     (f = "key"%string /\ never_given res_key cs) \/
     (f = "duration"%string /\ never_given res_duration cs)).
Proof. exact c94_cache_result. Qed.
Print Assumptions C94_cache_result.

Theorem C94_add_site : forall cs,
  (forall id m, ab_build (ab_run cs) = Built (id, m) <-> given add_id cs id /\ given add_mcaptcha cs m) /\
  ((exists f, ab_build (ab_run cs) = Uninitialized f) <-> never_given add_id cs \/ never_given add_mcaptcha cs) /\
  (forall f, ab_build (ab_run cs) = Uninitialized f ->
     (f = "id"%string /\ never_given add_id cs) \/
     (f = "mcaptcha"%string /\ never_given add_mcaptcha cs)).
Proof. exact c94_add_site. Qed.
Print Assumptions C94_add_site.

Theorem C94_rename : forall cs,
  (forall a b, nb_build (nb_run cs) = Built (a, b) <-> given ren_name cs a /\ given ren_to cs b) /\
  ((exists f, nb_build (nb_run cs) = Uninitialized f) <-> never_given ren_name cs \/ never_given ren_to cs) /\
  (forall f, nb_build (nb_run cs) = Uninitialized f ->
     (f = "name"%string /\ never_given ren_name cs) \/
     (f = "rename_to"%string /\ never_given ren_to cs)).
Proof. exact c94_rename. Qed.
Print Assumptions C94_rename.

(** The library's own use of a builder never panics and gives the result that
    the rest of the model works with. *)
Theorem C94_own_use : forall c token, exists r,
  cached_into_result_built c token = Val r /\ r = cached_into_result c token /\
  cr_token r = token /\ cr_key r = cc_key c /\ cr_duration r = cc_duration c.
Proof. exact c94_own_use. Qed.
Print Assumptions C94_own_use.

Example C94_witness :
  nb_build (nb_run [NbRenameTo "b"; NbName "x"; NbName "a"]) = Built ("a", "b")%string /\
  nb_build (nb_run [NbRenameTo "b"]) = Uninitialized "name"%string.
Proof. done. Qed.
