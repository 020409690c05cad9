From Coq Require Import Ascii Decimal DecimalString DecimalN.
From Coq Require Import ZifyBool ZifyN ZifyNat Lia.
From Verif Require Import Model.Base Model.HashCache Model.Json Model.Serde Model.Redis Model.RedisActor
  Model.RedisTokens Spec.RedisSpec Proofs.JsonProofs.

Global Instance fate_eq_dec : EqDecision fate.
Proof. solve_decision. Defined.
Global Instance storable_dec now n : Decision (storable now n).
Proof. unfold storable. apply _. Defined.

(** ** Keys *)
Lemma app_inj_l (a b c : string) : a +:+ b = a +:+ c -> b = c.
Proof. induction a as [|x a IH]; [done|]. intros [= H]. by apply IH. Qed.
Lemma split_colon k k' t t' : no_colon k -> no_colon k' ->
  k +:+ ":" +:+ t = k' +:+ ":" +:+ t' -> k = k' /\ t = t'.
Proof.
  unfold no_colon. revert k'. induction k as [|c k IH]; intros k' Hk Hk' H.
  - destruct k' as [|c' k']; [by injection H as ->|]. injection H as <- _. destruct Hk'.
    cbn [list_ascii_of_string]. by apply elem_of_cons; left.
  - destruct k' as [|c' k'].
    + injection H as -> _. destruct Hk. cbn [list_ascii_of_string]. by apply elem_of_cons; left.
    + injection H as -> H. destruct (IH k') as [-> ->]; [| |exact H|done].
      * intros Hin. apply Hk. cbn [list_ascii_of_string]. by apply elem_of_cons; right.
      * intros Hin. apply Hk'. cbn [list_ascii_of_string]. by apply elem_of_cons; right.
Qed.
Lemma token_key_inj k k' t t' : no_colon k -> no_colon k' ->
  token_key k t = token_key k' t' -> k = k' /\ t = t'.
Proof. unfold token_key. intros Hk Hk' H. apply app_inj_l in H. by apply split_colon. Qed.
Lemma token_key_ambiguous a b t : token_key (a +:+ ":" +:+ b) t = token_key a (b +:+ ":" +:+ t).
Proof. unfold token_key. by rewrite !app_assoc_s. Qed.

(** ** Numbers *)
Lemma digits_print n : digits (print_num n) = Some n.
Proof.
  unfold digits, print_num. destruct (NilEmpty.string_of_uint (N.to_uint n)) eqn:E.
  - assert (N.to_uint n = Nil) as Hn.
    { destruct (N.to_uint n); cbn in E; done. }
    exfalso. destruct n; cbn in Hn; [done|]. by apply (DecimalPos.Unsigned.to_uint_nonnil p).
  - rewrite <- E, NilEmpty.usu. by rewrite DecimalN.Unsigned.of_to.
Qed.

(** ** The server *)
Definition ckey (c : token_call) : string := token_key (about c).1 (about c).2.
Lemma ex_ok_spec now n : ex_ok now n = true <-> storable now n.
Proof. unfold ex_ok, storable, i64_max. lia. Qed.
Lemma step_add s now m f : f <> NotSent -> storable now (cr_duration m) ->
  token_step s (TokenEvent now (TkAdd m) f) =
    (<[token_key (cr_key m) (cr_token m) := (cr_key m, now + cr_duration m * 1000)]> s,
     match f with Answered => Val (RoUnit (Ok tt)) | _ => Panic end).
Proof.
  intros Hf Hs%ex_ok_spec. unfold token_step. cbn [te_call te_fate te_now token_cmd lift rc_cmd r_add_token ro_cmd serve].
  rewrite digits_print, Hs. by destruct f.
Qed.
Lemma step_add_refused s now m f : f <> NotSent -> ~ storable now (cr_duration m) ->
  token_step s (TokenEvent now (TkAdd m) f) = (s, Panic).
Proof.
  intros Hf Hs. unfold token_step. cbn [te_call te_fate te_now token_cmd lift rc_cmd r_add_token ro_cmd serve].
  rewrite digits_print. destruct (ex_ok now (cr_duration m)) eqn:E; [by apply ex_ok_spec in E|]. by destruct f.
Qed.
Lemma step_get s now m f : f <> NotSent ->
  token_step s (TokenEvent now (TkGet m) f) =
    (delete (token_key (vr_key m) (vr_token m)) s,
     match f with
     | Answered => Val (RoBool (Ok (present now s (token_key (vr_key m) (vr_token m)))))
     | _ => Val (RoBool (Err (RedisError "connection")))
     end).
Proof.
  intros Hf. unfold token_step. cbn [te_call te_fate te_now token_cmd lift rc_cmd r_get_token ro_cmd serve].
  destruct f; [|done|done]. by destruct (present now s _).
Qed.
Lemma step_del s now m f : f <> NotSent ->
  fst (token_step s (TokenEvent now (TkDel m) f)) = delete (token_key (vr_key m) (vr_token m)) s.
Proof. intros Hf. by destruct f. Qed.
Lemma step_notsent s now c : fst (token_step s (TokenEvent now c NotSent)) = s.
Proof. by destruct c. Qed.

(** What a step does to one key. *)
Lemma step_other s e k : (effective e -> ckey (te_call e) <> k) -> fst (token_step s e) !! k = s !! k.
Proof.
  destruct e as [now c f]. unfold effective. cbn [te_fate te_call te_now]. intros H.
  destruct (decide (f = NotSent)) as [->|Hf]; [by rewrite step_notsent|].
  destruct c as [m|m|m].
  - destruct (decide (storable now (cr_duration m))) as [Hs|Hs].
    + rewrite step_add by done. cbn [fst]. rewrite lookup_insert_ne; [done|]. by apply H.
    + by rewrite step_add_refused.
  - rewrite step_get by done. cbn [fst]. rewrite lookup_delete_ne; [done|]. by apply H.
  - rewrite step_del by done. rewrite lookup_delete_ne; [done|]. by apply H.
Qed.

(** ** Histories *)
Lemma token_run_app s h1 h2 :
  fst (token_run s (h1 ++ h2)) = fst (token_run (fst (token_run s h1)) h2).
Proof.
  revert s. induction h1 as [|e h1 IH]; intros s; [done|]. cbn [app token_run].
  destruct (token_step s e) as [s1 x]. specialize (IH s1).
  destruct (token_run s1 (h1 ++ h2)), (token_run s1 h1). cbn [fst] in *. done.
Qed.
Lemma token_run_snoc s h e : fst (token_run s (h ++ [e])) = fst (token_step (fst (token_run s h)) e).
Proof. rewrite token_run_app. cbn [token_run]. by destruct (token_step _ e). Qed.

Definition stored_at (k : string) (h : list token_event) (due : N) : Prop :=
  exists h1 e m h2, h = h1 ++ e :: h2 /\ te_call e = TkAdd m /\ effective e /\
    token_key (cr_key m) (cr_token m) = k /\ due = te_now e + cr_duration m * 1000 /\
    Forall (fun e' => effective e' -> ckey (te_call e') <> k) h2.
Lemma stored_snoc_other k h e due : (effective e -> ckey (te_call e) <> k) ->
  stored_at k (h ++ [e]) due <-> stored_at k h due.
Proof.
  intros He. split.
  - intros (h1 & e1 & m & h2 & Hh & Hc & Heff & Hk & Hd & Hall).
    destruct h2 as [|x h2'] using rev_ind.
    + apply app_inj_tail in Hh as [-> ->]. exfalso. apply (He Heff). unfold ckey. by rewrite Hc.
    + clear IHh2'. change (e1 :: h2' ++ [x]) with ((e1 :: h2') ++ [x]) in Hh. rewrite app_assoc in Hh.
      apply app_inj_tail in Hh as [-> ->]. apply Forall_app in Hall as [Hall _].
      exists h1, e1, m, h2'. done.
  - intros (h1 & e1 & m & h2 & -> & Hc & Heff & Hk & Hd & Hall).
    exists h1, e1, m, (h2 ++ [e]). split; [by rewrite <- app_assoc|]. do 4 (split; [done|]).
    apply Forall_app. split; [done|]. by apply Forall_singleton.
Qed.
Lemma stored_snoc_touch k h e due : effective e -> ckey (te_call e) = k ->
  stored_at k (h ++ [e]) due <->
    exists m, te_call e = TkAdd m /\ due = te_now e + cr_duration m * 1000.
Proof.
  intros He Hk. split.
  - intros (h1 & e1 & m & h2 & Hh & Hc & Heff & Hk1 & Hd & Hall).
    destruct h2 as [|x h2'] using rev_ind.
    + apply app_inj_tail in Hh as [-> ->]. eauto.
    + clear IHh2'. change (e1 :: h2' ++ [x]) with ((e1 :: h2') ++ [x]) in Hh. rewrite app_assoc in Hh.
      apply app_inj_tail in Hh as [-> ->]. apply Forall_app in Hall as [_ Hall].
      rewrite Forall_singleton in Hall. by destruct (Hall He).
  - intros (m & Hc & ->). exists h, e, m, []. do 3 (split; [done|]). split; [|split; [done|by apply Forall_nil]].
    rewrite <- Hk. unfold ckey. by rewrite Hc.
Qed.
Global Instance effective_dec e : Decision (effective e).
Proof. destruct e as [now [m|m|m] f]; unfold effective; cbn [te_fate te_call te_now]; apply _. Defined.
Lemma store_spec h k due :
  (exists v, fst (token_run ∅ h) !! k = Some (v, due)) <-> stored_at k h due.
Proof.
  revert due. induction h as [|e h IH] using rev_ind; intros due.
  - cbn. split; [intros [v Hv]; by rewrite lookup_empty in Hv|].
    by intros (h1 & ? & ? & h2 & Hh & _); destruct h1.
  - rewrite token_run_snoc. destruct (decide (effective e)) as [He|He].
    2:{ rewrite step_other, stored_snoc_other by done. apply IH. }
    destruct (decide (ckey (te_call e) = k)) as [Hk|Hk].
    2:{ rewrite step_other, stored_snoc_other by done. apply IH. }
    rewrite stored_snoc_touch by done. clear IH. destruct e as [now c f]. destruct He as [Hf Hs].
    cbn [te_fate te_call te_now] in *. destruct c as [m|m|m]; cbn [te_call ckey about fst snd] in Hk; unfold ckey in Hk;
      cbn [about fst snd] in Hk.
    + rewrite step_add by done. cbn [fst]. rewrite <- Hk, lookup_insert. split.
      * intros [v [= <- <-]]. eauto.
      * intros (m' & [= <-] & ->). eauto.
    + rewrite step_get by done. cbn [fst]. rewrite <- Hk, lookup_delete. split; [by intros [? ?]|].
      by intros (? & ? & ?).
    + rewrite step_del by done. rewrite <- Hk, lookup_delete. split; [by intros [? ?]|].
      by intros (? & ? & ?).
Qed.
Definition same_key (k : string) (x : string * string) : Prop := token_key x.1 x.2 = k.
Lemma present_live now h k : present now (fst (token_run ∅ h)) k = true <-> live (same_key k) now h.
Proof.
  unfold present. transitivity (exists due, stored_at k h due /\ now <= due).
  - destruct (fst (token_run ∅ h) !! k) as [[v due]|] eqn:E.
    + split.
      * intros H. exists due. split; [apply store_spec; eauto|lia].
      * intros (due' & [v' Hs]%store_spec & Hle). assert (due' = due) by congruence. subst. lia.
    + split; [done|]. intros (due & [v Hv]%store_spec & _). congruence.
  - unfold live, stored_at, same_key. split.
    + intros (due & (h1 & e & m & h2 & H1 & H2 & H3 & H4 & -> & H5) & Hle). exists h1, e, m, h2. split_and!; done.
    + intros (h1 & e & m & h2 & H1 & H2 & H3 & H4 & Hle & H5). exists (te_now e + cr_duration m * 1000).
      split; [|done]. exists h1, e, m, h2. done.
Qed.
Lemma get_outcome h now m :
  exists b, outcome_of h (TokenEvent now (TkGet m) Answered) = Val (RoBool (Ok b)) /\
    (b = true <-> live (same_key (token_key (vr_key m) (vr_token m))) now h).
Proof.
  unfold outcome_of. rewrite step_get by done. cbn [snd]. eexists. split; [done|]. apply present_live.
Qed.
Lemma live_same (P Q : string * string -> Prop) now h :
  Forall (fun e => P (about (te_call e)) <-> Q (about (te_call e))) h -> live P now h -> live Q now h.
Proof.
  intros Hall (h1 & e & m & h2 & -> & Hc & He & Hp & Hle & Hr).
  apply Forall_app in Hall as [_ Hall]. apply Forall_cons in Hall as [H1 H2].
  exists h1, e, m, h2. split; [done|]. split; [done|]. split; [done|]. split; [|split; [done|]].
  - rewrite Hc in H1. by apply H1.
  - rewrite Forall_forall in *. intros e' Hin Heff Hq. apply (Hr e' Hin Heff). by apply (H2 e' Hin).
Qed.

(** ** Module check *)
Lemma check_ok info cmds : check_commands info cmds = Val (Ok tt) <-> Forall (command_there info) cmds.
Proof.
  induction cmds as [|c cmds IH]; cbn [check_commands]; [split; [by intros; apply Forall_nil|done]|].
  rewrite Forall_cons. unfold command_there at 1.
  destruct (info c) as [v|err]; [|split; [done|by intros [(? & ? & ?) _]]].
  assert (Hgo : (forall l, v <> RvArray (l ++ [RvNil])) -> check_commands info cmds = Val (Ok tt) <->
    (exists v0, RrVal v = RrVal v0 /\ forall l, v0 <> RvArray (l ++ [RvNil])) /\ Forall (command_there info) cmds).
  { intros Hv. rewrite IH. split; [|by intros [_ ?]]. intros H. split; [by exists v|done]. }
  destruct v as [| | | | |l]; try (apply Hgo; intros; discriminate).
  destruct (last l) as [x|] eqn:E.
  - apply last_Some in E as [l' ->]. destruct x;
      try (apply Hgo; intros l0 [= H]; apply app_inj_tail in H as [_ H]; discriminate).
    split; [done|]. intros [(v0 & [= <-] & Hv) _]. by destruct (Hv l').
  - apply last_None in E as ->. apply Hgo. intros l0 [= H]. by destruct l0.
Qed.
