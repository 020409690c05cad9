(** Proofs about several Systems on one Redis. *)
From Coq Require Import ZifyBool ZifyN ZifyNat Lia.
From Verif Require Import Model.Base Model.MCaptcha Model.HashCache Model.Pow Model.System Model.Redis
  Model.RedisActor Model.RedisTokens Model.SystemProgram Model.SystemShared Spec.RedisSpec Spec.ProgramSpec
  Spec.SharedSpec Proofs.RedisProofs Proofs.ProgramProofs.

Lemma sh_run_app ls s es1 es2 :
  sh_run ls s (es1 ++ es2) =
  match sh_run ls s es1 with
  | Some (s1, o1) => match sh_run ls s1 es2 with Some (s2, o2) => Some (s2, o1 ++ o2) | None => None end
  | None => None
  end.
Proof.
  revert s. induction es1 as [|e es1 IH]; intros s; cbn.
  - by destruct (sh_run ls s es2) as [[]|].
  - destruct (sh_step ls s e) as [[s1 o1]|]; [|done]. rewrite IH. destruct (sh_run ls s1 es1) as [[s2 o2]|]; [|done].
    destruct (sh_run ls s2 es2) as [[s3 o3]|]; [|done]. by rewrite app_assoc.
Qed.
Lemma sh_run_snoc ls s es e s2 tr : sh_run ls s (es ++ [e]) = Some (s2, tr) ->
  exists s1 tr1 o, sh_run ls s es = Some (s1, tr1) /\ sh_step ls s1 e = Some (s2, o) /\ tr = tr1 ++ o.
Proof.
  rewrite sh_run_app. destruct (sh_run ls s es) as [[s1 tr1]|]; [|done]. cbn.
  destruct (sh_step ls s1 e) as [[s3 o]|] eqn:E; [|done]. intros [= <- <-]. exists s1, tr1, o.
  by rewrite app_nil_r.
Qed.

(** What a step of a call is. *)
Record answered (l : pow_lib) (now : N) (sv : server) (p : prog) (sv' : server) (p' : prog) (e : pev) (f : fate) : Prop := {
  an_step : p_step p e = Some p';
  an_server : sv' = match token_of (XoDid 0 now e f) with Some te => fst (token_step sv te) | None => sv end;
  an_true : forall m b, e = PeVerify m (An (Ok b)) ->
    snd (token_step sv (TokenEvent now (TkGet m) f)) = Val (RoBool (Ok b));
  an_told : forall m e', e = PeVerify m (An (Err e')) ->
    snd (token_step sv (TokenEvent now (TkGet m) f)) = Val (RoBool (Err e'));
  an_store : forall m, e = PeCacheResult m (An (Ok tt)) ->
    snd (token_step sv (TokenEvent now (TkAdd m) f)) = Val (RoUnit (Ok tt));
  an_verdict : forall q b, e = PeVerdict q (Some b) -> head (fst (validate l q)) = Some b;
  an_found : forall m c, e = PeRetrieve m (An (Ok (Some c))) -> cc_key c = vr_key m }.

Lemma respond_answered l now sv p x sv' p' e f :
  respond l now sv p x = Some (sv', p', e, f) -> answered l now sv p sv' p' e f.
Proof.
  intros H. destruct p, x; try discriminate H; cbn [respond] in H;
    repeat match type of H with
    | context [match token_step ?s ?t with _ => _ end] => destruct (token_step s t) as [sx ox] eqn:Et
    | context [if ?b then _ else _] => destruct b eqn:Eb; [|discriminate H]
    end; injection H as <- <- <- <-; split; cbn [p_step token_of]; rewrite ?decide_True by done; try done;
    try (by rewrite ?Et); try (intros ? ? [=]; fail).
  all: try (intros m0 b0 [= -> Ha]; rewrite Et; cbn [snd]; destruct ox as [[]|]; cbn in Ha; congruence).
  all: try (intros m0 [= -> Ha]; rewrite Et; cbn [snd]; destruct ox as [[]|]; cbn in Ha; congruence).
  all: try (by destruct closed).
  all: try (by intros; destruct closed).
  - intros m0 c [= -> Ha]. destruct (exec _ _ _) as [[v|e]|]; cbn in Ha; try discriminate Ha. by injection Ha as <-.
  - intros q' b' [= -> ->]. cbn in Eb. by apply bool_decide_eq_true in Eb.
Qed.

(** * The invariant *)
Lemma tokens_app tr1 tr2 : tokens (tr1 ++ tr2) = tokens tr1 ++ tokens tr2.
Proof. apply omap_app. Qed.
Lemma requests_of_app n tr1 tr2 : requests_of n (tr1 ++ tr2) = requests_of n tr1 ++ requests_of n tr2.
Proof. apply omap_app. Qed.

Definition follows (ls : nat -> pow_lib) (tr : list shout) (n i : nat) (p : prog) : Prop :=
  exists c, XoCall n i c ∈ tr /\ (forall i' c', XoCall n i' c' ∈ tr -> i' = i /\ c' = c) /\
    p_run (program (pl_salt (ls i)) c) (requests_of n tr) = Some p.
Record shinv (ls : nat -> pow_lib) (tr : list shout) (s : shared) : Prop := {
  hv_server : sh_server s = fst (token_run ∅ (tokens tr));
  hv_old : forall n, (n < sh_next s)%nat -> exists i p, follows ls tr n i p /\
    (sh_calls s !! n = Some (i, p) \/ sh_calls s !! n = None) /\
    (forall r, XoRet n r ∈ tr -> p = PRet r /\ sh_calls s !! n = None);
  hv_new : forall n, (sh_next s <= n)%nat -> sh_calls s !! n = None /\ requests_of n tr = [] /\
    (forall i c, XoCall n i c ∉ tr) /\ (forall r, XoRet n r ∉ tr) }.

Lemma follows_other ls tr n i p o : follows ls tr n i p -> requests_of n [o] = [] ->
  (forall i c, o <> XoCall n i c) -> follows ls (tr ++ [o]) n i p.
Proof.
  intros (c & Hc & Hu & Hp) Hr Ho. exists c. split; [apply elem_of_app; by left|]. split.
  - intros i' c' [Hx|Hx%elem_of_list_singleton]%elem_of_app; [by apply Hu|]. by destruct (Ho i' c').
  - by rewrite requests_of_app, Hr, app_nil_r.
Qed.

Lemma shinv_live ls tr s n i p : shinv ls tr s -> sh_calls s !! n = Some (i, p) ->
  (n < sh_next s)%nat /\ follows ls tr n i p /\ forall r, XoRet n r ∉ tr.
Proof.
  intros H Hn. assert (Hlt : (n < sh_next s)%nat).
  { destruct (decide (n < sh_next s)%nat); [done|]. destruct (hv_new _ _ _ H n) as [E _]; [lia|congruence]. }
  split; [done|]. destruct (hv_old _ _ _ H n Hlt) as (i' & p' & Hf & Hl & Hr).
  destruct Hl as [Hl|Hl]; [|congruence]. rewrite Hn in Hl. injection Hl as <- <-. split; [done|].
  intros r Hin. destruct (Hr r Hin) as [_ E]. congruence.
Qed.

Lemma requests_skip n o : (forall n' t e f, o <> XoDid n' t e f) -> requests_of n [o] = [].
Proof. intros H. destruct o as [|n' t e f| | | |]; try done. by destruct (H n' t e f). Qed.
Lemma requests_skip_ne n n' t e f : n <> n' -> requests_of n [XoDid n' t e f] = [].
Proof. intros Hne. cbn. by rewrite decide_False. Qed.

Lemma shinv_step ls tr s e s' o : shinv ls tr s -> sh_step ls s e = Some (s', o) -> shinv ls (tr ++ o) s'.
Proof.
  intros H Hs. destruct e as [i c|n x|n|n|c f|j|d]; cbn [sh_step] in Hs.
  - injection Hs as <- <-. split; cbn [sh_server sh_next sh_calls].
    + rewrite tokens_app. cbn. rewrite app_nil_r. by apply H.
    + intros n Hn. destruct (decide (n = sh_next s)) as [->|Hne].
      * destruct (hv_new _ _ _ H (sh_next s)) as (E1 & E2 & E3 & E4); [done|].
        exists i, (program (pl_salt (ls i)) c). split; [|split; [by left; rewrite lookup_insert|]].
        -- exists c. split; [apply elem_of_app; right; by left|]. split.
           ++ intros i' c' [Hx|Hx%elem_of_list_singleton]%elem_of_app; [by destruct (E3 i' c')|]. by injection Hx.
           ++ by rewrite requests_of_app, E2.
        -- intros r [Hx|Hx%elem_of_list_singleton]%elem_of_app; [by destruct (E4 r)|done].
      * destruct (hv_old _ _ _ H n) as (i' & p & Hf & Hl & Hr); [lia|]. exists i', p.
        rewrite lookup_insert_ne by done. split; [apply follows_other; [done|done|congruence]|]. split; [done|].
        intros r [Hx|Hx%elem_of_list_singleton]%elem_of_app; [by apply Hr|done].
    + intros n Hn. destruct (hv_new _ _ _ H n) as (E1 & E2 & E3 & E4); [lia|].
      rewrite lookup_insert_ne by lia. split; [done|]. rewrite requests_of_app, E2. split; [done|]. split.
      * intros i' c' [Hx|Hx%elem_of_list_singleton]%elem_of_app; [by destruct (E3 i' c')|]. injection Hx. lia.
      * intros r [Hx|Hx%elem_of_list_singleton]%elem_of_app; [by destruct (E4 r)|done].
  - destruct (sh_calls s !! n) as [[i p]|] eqn:En; [|done].
    destruct (respond (ls i) (sh_now s) (sh_server s) p x) as [[[[sv p'] e] f]|] eqn:Er; [|done].
    injection Hs as <- <-. apply respond_answered in Er as [Hp Hsv _ _ _ _ _].
    destruct (shinv_live _ _ _ _ _ _ H En) as (Hlt & Hf & Hnr).
    split; cbn [sh_server sh_next sh_calls].
    + rewrite tokens_app, Hsv, (hv_server _ _ _ H).
      change (tokens [XoDid n (sh_now s) e f]) with (omap token_of [XoDid n (sh_now s) e f]).
      destruct e; cbn; rewrite ?app_nil_r, ?token_run_snoc; done.
    + intros n' Hn'. destruct (decide (n' = n)) as [->|Hne].
      * exists i, p'. split; [|split; [by left; rewrite lookup_insert|]].
        -- destruct Hf as (c & Hc & Hu & Hpr). exists c. split; [apply elem_of_app; by left|]. split.
           ++ intros i' c' [Hx|Hx%elem_of_list_singleton]%elem_of_app; [by apply Hu|done].
           ++ rewrite requests_of_app. cbn [requests_of omap list_omap did]. rewrite decide_True by done.
              by eapply p_run_snoc.
        -- intros r [Hx|Hx%elem_of_list_singleton]%elem_of_app; [by destruct (Hnr r)|done].
      * destruct (hv_old _ _ _ H n' Hn') as (i' & p0 & Hf' & Hl & Hr'). exists i', p0.
        rewrite lookup_insert_ne by done.
        split; [apply follows_other; [done|by apply requests_skip_ne|congruence]|]. split; [done|].
        intros r [Hx|Hx%elem_of_list_singleton]%elem_of_app; [by apply Hr'|done].
    + intros n' Hn'. destruct (hv_new _ _ _ H n') as (E1 & E2 & E3 & E4); [lia|].
      rewrite lookup_insert_ne by lia. split; [done|]. rewrite requests_of_app, E2, requests_skip_ne by lia.
      split; [done|]. split.
      * intros i' c' [Hx|Hx%elem_of_list_singleton]%elem_of_app; [by destruct (E3 i' c')|done].
      * intros r [Hx|Hx%elem_of_list_singleton]%elem_of_app; [by destruct (E4 r)|done].
  - destruct (sh_calls s !! n) as [[i [r| | | | | | | |]]|] eqn:En; try done. injection Hs as <- <-.
    destruct (shinv_live _ _ _ _ _ _ H En) as (Hlt & Hf & Hnr). split; cbn [sh_server sh_next sh_calls].
    + rewrite tokens_app. cbn. rewrite app_nil_r. by apply H.
    + intros n' Hn'. destruct (decide (n' = n)) as [->|Hne].
      * exists i, (PRet r). split; [apply follows_other; done|]. rewrite lookup_delete. split; [by right|].
        intros r' [Hx|Hx%elem_of_list_singleton]%elem_of_app; [by destruct (Hnr r')|]. by injection Hx as ->.
      * destruct (hv_old _ _ _ H n' Hn') as (i' & p0 & Hf' & Hl & Hr'). exists i', p0.
        rewrite lookup_delete_ne by done. split; [by apply follows_other|]. split; [done|].
        intros r' [Hx|Hx%elem_of_list_singleton]%elem_of_app; [by apply Hr'|]. congruence.
    + intros n' Hn'. destruct (hv_new _ _ _ H n') as (E1 & E2 & E3 & E4); [lia|].
      rewrite lookup_delete_ne by lia. split; [done|]. rewrite requests_of_app, E2. split; [done|]. split.
      * intros i' c' [Hx|Hx%elem_of_list_singleton]%elem_of_app; [by destruct (E3 i' c')|done].
      * intros r' [Hx|Hx%elem_of_list_singleton]%elem_of_app; [by destruct (E4 r')|]. injection Hx. lia.
  - destruct (sh_calls s !! n) as [[i p]|] eqn:En; try done. injection Hs as <- <-.
    destruct (shinv_live _ _ _ _ _ _ H En) as (Hlt & Hf & Hnr). split; cbn [sh_server sh_next sh_calls].
    + rewrite tokens_app. cbn. rewrite app_nil_r. by apply H.
    + intros n' Hn'. destruct (decide (n' = n)) as [->|Hne].
      * exists i, p. split; [by apply follows_other|]. rewrite lookup_delete. split; [by right|].
        intros r' [Hx|Hx%elem_of_list_singleton]%elem_of_app; [by destruct (Hnr r')|done].
      * destruct (hv_old _ _ _ H n' Hn') as (i' & p0 & Hf' & Hl & Hr'). exists i', p0.
        rewrite lookup_delete_ne by done. split; [by apply follows_other|]. split; [done|].
        intros r' [Hx|Hx%elem_of_list_singleton]%elem_of_app; [by apply Hr'|]. done.
    + intros n' Hn'. destruct (hv_new _ _ _ H n') as (E1 & E2 & E3 & E4); [lia|].
      rewrite lookup_delete_ne by lia. split; [done|]. rewrite requests_of_app, E2. split; [done|]. split.
      * intros i' c' [Hx|Hx%elem_of_list_singleton]%elem_of_app; [by destruct (E3 i' c')|done].
      * intros r' [Hx|Hx%elem_of_list_singleton]%elem_of_app; [by destruct (E4 r')|done].
  - assert (exists sv, sv = fst (token_step (sh_server s) (TokenEvent (sh_now s) c f)) /\
      s' = Shared (sh_now s) sv (sh_calls s) (sh_next s) (sh_late s) /\ o = [XoOther (sh_now s) c f]) as (sv & Hsv & -> & ->).
    { destruct c; [done| |]; destruct (token_step _ _) as [sv x]; injection Hs as <- <-; by exists sv. }
    split; cbn [sh_server sh_next sh_calls].
    + rewrite tokens_app. cbn. rewrite token_run_snoc, <- (hv_server _ _ _ H). done.
    + intros n' Hn'. destruct (hv_old _ _ _ H n' Hn') as (i' & p0 & Hf' & Hl & Hr'). exists i', p0.
      split; [by apply follows_other|]. split; [done|].
      intros r' [Hx|Hx%elem_of_list_singleton]%elem_of_app; [by apply Hr'|]. done.
    + intros n' Hn'. destruct (hv_new _ _ _ H n') as (E1 & E2 & E3 & E4); [lia|].
      split; [done|]. rewrite requests_of_app, E2. split; [done|]. split.
      * intros i' c' [Hx|Hx%elem_of_list_singleton]%elem_of_app; [by destruct (E3 i' c')|done].
      * intros r' [Hx|Hx%elem_of_list_singleton]%elem_of_app; [by destruct (E4 r')|done].
  - destruct (sh_late s !! j) as [[n m]|]; [|done].
    destruct (token_step _ _) as [sv x] eqn:Et. injection Hs as <- <-.
    split; cbn [sh_server sh_next sh_calls].
    + rewrite tokens_app. cbn. rewrite token_run_snoc, <- (hv_server _ _ _ H). by rewrite Et.
    + intros n' Hn'. destruct (hv_old _ _ _ H n' Hn') as (i' & p0 & Hf' & Hl & Hr'). exists i', p0.
      split; [by apply follows_other|]. split; [done|].
      intros r' [Hx|Hx%elem_of_list_singleton]%elem_of_app; [by apply Hr'|]. done.
    + intros n' Hn'. destruct (hv_new _ _ _ H n') as (E1 & E2 & E3 & E4); [lia|].
      split; [done|]. rewrite requests_of_app, E2. split; [done|]. split.
      * intros i' c' [Hx|Hx%elem_of_list_singleton]%elem_of_app; [by destruct (E3 i' c')|done].
      * intros r' [Hx|Hx%elem_of_list_singleton]%elem_of_app; [by destruct (E4 r')|done].
  - injection Hs as <- <-. rewrite app_nil_r. destruct H as [H1 H2 H3]. by split.
Qed.
Lemma run_shinv ls now es s tr : sh_run ls (sh_init now) es = Some (s, tr) -> shinv ls tr s.
Proof.
  revert s tr. induction es as [|e es IH] using rev_ind; intros s tr Hr.
  - injection Hr as <- <-. split; cbn; [done|lia|]. intros n _. rewrite lookup_empty. split; [done|]. split; [done|].
    split; intros; apply not_elem_of_nil.
  - apply sh_run_snoc in Hr as (s1 & tr1 & o & H1 & H2 & ->). eapply shinv_step; [by apply IH|done].
Qed.

(** * Every request, where it stands in the trace *)
Lemma step_one ls s e s' o : sh_step ls s e = Some (s', o) -> (length o <= 1)%nat.
Proof.
  intros H. destruct e as [i c|n x|n|n|c f|j|d]; cbn [sh_step] in H.
  - injection H as _ <-. cbn. lia.
  - destruct (sh_calls s !! n) as [[i p]|]; [|done].
    destruct (respond _ _ _ _ _) as [[[[sv p'] e] f]|]; [|done]. injection H as _ <-. cbn. lia.
  - destruct (sh_calls s !! n) as [[i [r| | | | | | | |]]|]; try done. injection H as _ <-. cbn. lia.
  - destruct (sh_calls s !! n) as [[i p]|]; [|done]. injection H as _ <-. cbn. lia.
  - destruct c; [done| |]; destruct (token_step _ _); injection H as _ <-; cbn; lia.
  - destruct (sh_late s !! j) as [[n m]|]; [|done]. destruct (token_step _ _). injection H as _ <-. cbn. lia.
  - injection H as _ <-. cbn. lia.
Qed.
Lemma nil_or_snoc {A} (xs : list A) : xs = [] \/ exists ys y, xs = ys ++ [y].
Proof. destruct xs as [|y ys] using rev_ind; [by left|right; eauto]. Qed.
(** A prefix of a trace is the trace of a prefix. *)
Lemma run_prefix ls now es s tr tr1 tr2 : sh_run ls (sh_init now) es = Some (s, tr) -> tr = tr1 ++ tr2 ->
  exists es1 s1, sh_run ls (sh_init now) es1 = Some (s1, tr1).
Proof.
  revert s tr tr2. induction es as [|e es IH] using rev_ind; intros s tr tr2 Hr E.
  - injection Hr as <- <-. symmetry in E. apply app_eq_nil in E as [-> ->]. by exists [], (sh_init now).
  - pose proof Hr as Hall. apply sh_run_snoc in Hr as (s1 & tr0 & o & H1 & H2 & Ho). apply step_one in H2.
    destruct (nil_or_snoc tr2) as [->|(tr3 & x & ->)]; [rewrite app_nil_r in E; rewrite E in Hall; by eauto|].
    destruct o as [|y [|]]; [|clear H2|cbn in H2; lia].
    + rewrite app_nil_r in Ho. subst tr0. by eapply IH.
    + rewrite E, app_assoc in Ho. apply app_inj_tail in Ho as [Ho _]. eapply (IH _ _ tr3 H1). done.
Qed.
Lemma did_at ls now es s tr tr1 n t e f tr2 :
  sh_run ls (sh_init now) es = Some (s, tr) -> tr = tr1 ++ XoDid n t e f :: tr2 ->
  exists i p p' sv', follows ls tr1 n i p /\
    answered (ls i) t (fst (token_run ∅ (tokens tr1))) p sv' p' e f.
Proof.
  intros Hr E. rewrite cons_middle, app_assoc in E. destruct (run_prefix _ _ _ _ _ _ _ Hr E) as (es1 & s1 & H1).
  clear Hr E s tr tr2 es. revert s1 H1. induction es1 as [|ev es IH] using rev_ind; intros s1 Hr.
  - injection Hr as _ Hr. by destruct tr1.
  - apply sh_run_snoc in Hr as (s0 & tr0 & o & H1 & H2 & Ho). pose proof (step_one _ _ _ _ _ H2) as Hlen.
    destruct o as [|y [|]]; [|clear Hlen|cbn in Hlen; lia].
    + rewrite app_nil_r in Ho. subst tr0. by eapply IH.
    + apply app_inj_tail in Ho as [<- <-]. clear IH. pose proof (run_shinv _ _ _ _ _ H1) as Hi.
      destruct ev as [i c|m x|m|m|c f'|j|d]; cbn [sh_step] in H2; try done.
      * destruct (sh_calls s0 !! m) as [[i p]|] eqn:En; [|done].
        destruct (respond _ _ _ _ _) as [[[[sv p'] e'] f']|] eqn:Er; [|done]. injection H2 as _ -> <- -> ->.
        destruct (shinv_live _ _ _ _ _ _ Hi En) as (_ & Hf & _). apply respond_answered in Er.
        rewrite (hv_server _ _ _ Hi) in Er. by exists i, p, p', sv.
      * destruct (sh_calls s0 !! m) as [[i [r| | | | | | | |]]|]; done.
      * by destruct (sh_calls s0 !! m) as [[i p]|].
      * destruct c; [done| |]; by destruct (token_step _ _).
      * destruct (sh_late s0 !! j) as [[? ?]|]; [|done]. by destruct (token_step _ _).
Qed.
Lemma ret_at ls now es s tr n r :
  sh_run ls (sh_init now) es = Some (s, tr) -> XoRet n r ∈ tr ->
  exists i c, XoCall n i c ∈ tr /\ p_run (program (pl_salt (ls i)) c) (requests_of n tr) = Some (PRet r).
Proof.
  intros Hr Hin. pose proof (run_shinv _ _ _ _ _ Hr) as Hi.
  destruct (decide (n < sh_next s)%nat) as [Hlt|Hge].
  - destruct (hv_old _ _ _ Hi n Hlt) as (i & p & (c & Hc & _ & Hp) & _ & Hret).
    destruct (Hret _ Hin) as [-> _]. by exists i, c.
  - destruct (hv_new _ _ _ Hi n) as (_ & _ & _ & E); [lia|]. by destruct (E r).
Qed.

Lemma call_once ls now es s tr n i c i' c' : sh_run ls (sh_init now) es = Some (s, tr) ->
  XoCall n i c ∈ tr -> XoCall n i' c' ∈ tr -> i' = i /\ c' = c.
Proof.
  intros Hr H1 H2. pose proof (run_shinv _ _ _ _ _ Hr) as Hi. destruct (decide (n < sh_next s)%nat) as [Hlt|Hge].
  - destruct (hv_old _ _ _ Hi n Hlt) as (i0 & p & (c0 & _ & Hu & _) & _).
    destruct (Hu _ _ H1) as [-> ->]. by apply Hu.
  - destruct (hv_new _ _ _ Hi n) as (_ & _ & E & _); [lia|]. by destruct (E i c).
Qed.

(** * What a store of a token is preceded by *)
Lemma p_run_prefix p es1 es2 q : p_run p (es1 ++ es2) = Some q -> exists p1, p_run p es1 = Some p1 /\ p_run p1 es2 = Some q.
Proof. rewrite p_run_app. destruct (p_run p es1) as [p1|]; [|done]. eauto. Qed.
(** The beginnings of the three programs that lead to a given request. *)
Lemma before_store salt c es m a p : p_run (program salt c) (es ++ [PeCacheResult m a]) = Some p ->
  exists w ip cfg tok, c = CVerifyPow w ip /\ cc_key cfg = w_key w /\ m = CacheResult tok (w_key w) (cc_duration cfg) /\
    es = [PeRetrieve (VerifyCaptchaResult (w_string w) (w_key w)) (An (Ok (Some cfg)));
          PeSubmit ip (checked_work w cfg) (SuDone (Ok tt)); PeVerdict (checked_work w cfg) (Some true); PeDraw tok].
Proof.
  destruct c as [id|w ip|m'].
  - intros H. exfalso. cbn [program] in H. destruct es as [|[id' x|x|m' x|m' x|ip' q x|q b|m' x|m' x] es]; try discriminate H.
    cbn in H. case_decide; [|done]. destruct x as [| |[[v|]|e]]; try (by apply p_run_ret in H as [H _]; destruct es).
    destruct es as [|[id'' x|x|m' x|m' x|ip' q x|q b|m' x|m' x] es]; try discriminate H. cbn in H.
    destruct es as [|[id'' y|y|m' y|m' y|ip' q y|q b|m' y|m' y] es]; try discriminate H. cbn in H.
    case_decide; [|done]. destruct y as [| |[[]|e]]; by apply p_run_ret in H as [H _]; destruct es.
  - intros H. cbn [program] in H. destruct es as [|[id' x|x|m' x|m' x|ip' q x|q b|m' x|m' x] es]; try discriminate H.
    cbn in H. case_decide; [subst m'|done].
    destruct x as [| |[[cfg|]|e]]; try (by apply p_run_ret in H as [H _]; destruct es).
    cbn in H. case_decide as Hk; [|by apply p_run_ret in H as [H _]; destruct es].
    destruct es as [|[id' x|x|m' x|m' x|ip' q x|q b|m' x|m' x] es].
    1: discriminate H. all: try discriminate H.
    cbn in H. case_decide as Hq; [injection Hq as <- <-|done].
    destruct x as [[[]|e]|]; try (by apply p_run_ret in H as [H _]; destruct es).
    destruct es as [|[id' x|x|m' x|m' x|ip' q x|q b|m' x|m' x] es]; try discriminate H. cbn in H.
    case_decide; [subst q|done]. destruct b as [[]|]; try (by apply p_run_ret in H as [H _]; destruct es).
    destruct es as [|[id' x|tok|m' x|m' x|ip' q x|q b|m' x|m' x] es]; try discriminate H. cbn in H.
    destruct es as [|[id' x|x|m' x|m' x|ip' q x|q b|m' x|m' x] es]; try discriminate H.
    + cbn in H. case_decide; [subst m|done]. exists w, ip, cfg, tok. unfold cached_into_result. rewrite <- Hk. done.
    + cbn in H. case_decide; [|done]. destruct x as [| |[[]|e]]; by apply p_run_ret in H as [H _]; destruct es.
  - intros H. exfalso. cbn [program] in H. destruct es as [|[id' x|x|m'' x|m'' x|ip' q x|q b|m'' x|m'' x] es]; try discriminate H.
    cbn in H. case_decide; [|done]. destruct x as [| |[b|e]]; by apply p_run_ret in H as [H _]; destruct es.
Qed.
Lemma before_verify salt c es m a p : p_run (program salt c) (es ++ [PeVerify m a]) = Some p -> es = [] /\ c = CValidate m.
Proof.
  destruct c as [id|w ip|m'].
  - intros H. exfalso. cbn [program] in H. destruct es as [|[id' x|x|m' x|m' x|ip' q x|q b|m' x|m' x] es]; try discriminate H.
    cbn in H. case_decide; [|done]. destruct x as [| |[[v|]|e]]; try (by apply p_run_ret in H as [H _]; destruct es).
    destruct es as [|[id'' x|x|m' x|m' x|ip' q x|q b|m' x|m' x] es]; try discriminate H. cbn in H.
    destruct es as [|[id'' y|y|m' y|m' y|ip' q y|q b|m' y|m' y] es]; try discriminate H. cbn in H.
    case_decide; [|done]. destruct y as [| |[[]|e]]; by apply p_run_ret in H as [H _]; destruct es.
  - intros H. exfalso. cbn [program] in H. destruct es as [|[id' x|x|m' x|m' x|ip' q x|q b|m' x|m' x] es]; try discriminate H.
    cbn in H. case_decide; [subst m'|done].
    destruct x as [| |[[cfg|]|e]]; try (by apply p_run_ret in H as [H _]; destruct es).
    cbn in H. case_decide as Hk; [|by apply p_run_ret in H as [H _]; destruct es].
    destruct es as [|[id' x|x|m' x|m' x|ip' q x|q b|m' x|m' x] es].
    1: discriminate H. all: try discriminate H.
    cbn in H. case_decide as Hq; [injection Hq as <- <-|done].
    destruct x as [[[]|e]|]; try (by apply p_run_ret in H as [H _]; destruct es).
    destruct es as [|[id' x|x|m' x|m' x|ip' q x|q b|m' x|m' x] es]; try discriminate H. cbn in H.
    case_decide; [subst q|done]. destruct b as [[]|]; try (by apply p_run_ret in H as [H _]; destruct es).
    destruct es as [|[id' x|tok|m' x|m' x|ip' q x|q b|m' x|m' x] es]; try discriminate H. cbn in H.
    destruct es as [|[id' x|x|m' x|m' x|ip' q x|q b|m' x|m' x] es]; try discriminate H.
    cbn in H. case_decide; [|done]. destruct x as [| |[[]|e]]; by apply p_run_ret in H as [H _]; destruct es.
  - intros H. cbn [program] in H. destruct es as [|[id' x|x|m'' x|m'' x|ip' q x|q b|m'' x|m'' x] es]; try discriminate H.
    + cbn in H. case_decide; [by subst|done].
    + cbn in H. case_decide; [|done]. destruct x as [| |[b|e]]; by apply p_run_ret in H as [H _]; destruct es.
Qed.

Lemma requests_elem n tr e : e ∈ requests_of n tr <-> exists t f, XoDid n t e f ∈ tr.
Proof.
  unfold requests_of. rewrite elem_of_list_omap. split.
  - intros (o & Ho & Hd). destruct o as [|n' t e' f| | | |]; cbn in Hd; try done. case_decide; [|done].
    injection Hd as ->. subst n'. eauto.
  - intros (t & f & H). eexists. split; [done|]. cbn. by rewrite decide_True.
Qed.
Lemma head_true l q : head (fst (validate l q)) = Some true -> passes l q.
Proof.
  unfold validate, passes. destruct (is_sufficient_difficulty _ _ _) as [[]|]; [| |done].
  - destruct (is_valid_proof _ _ _) as [[]|]; done.
  - destruct (is_valid_proof _ _ _) as [[]|]; done.
Qed.

(** A store in the trace: which call of verify_pow made it, and why. *)
Lemma store_at ls now es s tr tr1 n t m a f tr2 :
  sh_run ls (sh_init now) es = Some (s, tr) -> tr = tr1 ++ XoDid n t (PeCacheResult m a) f :: tr2 ->
  exists i w ip cfg tok, XoCall n i (CVerifyPow w ip) ∈ tr1 /\ cc_key cfg = w_key w /\
    m = CacheResult tok (w_key w) (cc_duration cfg) /\ passes (ls i) (checked_work w cfg) /\
    requests_of n tr1 =
         [PeRetrieve (VerifyCaptchaResult (w_string w) (w_key w)) (An (Ok (Some cfg)));
          PeSubmit ip (checked_work w cfg) (SuDone (Ok tt)); PeVerdict (checked_work w cfg) (Some true); PeDraw tok].
Proof.
  intros Hr E. destruct (did_at _ _ _ _ _ _ _ _ _ _ _ Hr E) as (i & p & p' & sv & (c & Hc & Hu & Hp) & Ha).
  destruct Ha as [Hs _ _ _ _ _ _]. pose proof (p_run_snoc _ _ _ _ _ Hp Hs) as Hp'.
  destruct (before_store _ _ _ _ _ _ Hp') as (w & ip & cfg & tok & -> & Hk & -> & Hes).
  exists i, w, ip, cfg, tok. split; [done|]. split; [done|]. split; [done|]. split; [|done].
  assert (Hv : PeVerdict (checked_work w cfg) (Some true) ∈ requests_of n tr1).
  { rewrite Hes. apply elem_of_list_further. apply elem_of_list_further. by left. }
  apply requests_elem in Hv as (t' & f' & Hv). apply elem_of_list_split in Hv as (ta & tb & ->).
  rewrite <- app_assoc in E. cbn [app] in E.
  destruct (did_at _ _ _ _ _ _ _ _ _ _ _ Hr E) as (i' & q & q' & sv' & (c' & Hc' & _) & Ha).
  destruct (Hu i' c') as [-> _]; [apply elem_of_app; by left|].
  apply head_true. by apply (an_verdict _ _ _ _ _ _ _ _ Ha).
Qed.
Lemma other_no_add ls now es s tr t m f :
  sh_run ls (sh_init now) es = Some (s, tr) -> XoOther t (TkAdd m) f ∉ tr.
Proof.
  revert s tr. induction es as [|e es IH] using rev_ind; intros s tr Hr.
  - injection Hr as <- <-. apply not_elem_of_nil.
  - apply sh_run_snoc in Hr as (s1 & tr1 & o & H1 & H2 & ->).
    intros [Hx|Hx]%elem_of_app; [by eapply IH|]. destruct e as [i c|n x|n|n|c f'|j|d]; cbn [sh_step] in H2.
    + injection H2 as _ <-. by apply elem_of_list_singleton in Hx.
    + destruct (sh_calls s1 !! n) as [[i p]|]; [|done]. destruct (respond _ _ _ _ _) as [[[[sv p'] e'] f']|]; [|done].
      injection H2 as _ <-. by apply elem_of_list_singleton in Hx.
    + destruct (sh_calls s1 !! n) as [[i [r| | | | | | | |]]|]; try done. injection H2 as _ <-. by apply elem_of_list_singleton in Hx.
    + destruct (sh_calls s1 !! n) as [[i p]|]; try done. injection H2 as _ <-. by apply elem_of_list_singleton in Hx.
    + destruct c; [done| |]; destruct (token_step _ _); injection H2 as _ <-; by apply elem_of_list_singleton in Hx.
    + destruct (sh_late s1 !! j) as [[n' m']|]; [|done]. destruct (token_step _ _). injection H2 as _ <-. by apply elem_of_list_singleton in Hx.
    + injection H2 as _ <-. by apply elem_of_nil in Hx.
Qed.

(** * Counting acceptances *)
Lemma minted_app k tr1 tr2 : minted k (tr1 ++ tr2) = minted k tr1 ++ minted k tr2.
Proof. apply omap_app. Qed.
Lemma accepted_app k tr1 tr2 : accepted k (tr1 ++ tr2) = accepted k tr1 ++ accepted k tr2.
Proof. apply omap_app. Qed.
Definition there (s : server) (k : string) : nat := match s !! k with Some _ => 1%nat | None => 0%nat end.
Lemma get_true_fate sv now m f : snd (token_step sv (TokenEvent now (TkGet m) f)) = Val (RoBool (Ok true)) ->
  f = Answered /\ present now sv (token_key (vr_key m) (vr_token m)) = true.
Proof.
  destruct f; [|done|done]. rewrite step_get by done. cbn. destruct (present _ _ _); [done|]. cbn. done.
Qed.
Lemma there_step_get sv now m f k :
  (there (fst (token_step sv (TokenEvent now (TkGet m) f))) k <= there sv k)%nat.
Proof.
  destruct (decide (f = NotSent)) as [->|Hf]; [by rewrite step_notsent|]. rewrite step_get by done. cbn [fst]. unfold there.
  destruct (decide (token_key (vr_key m) (vr_token m) = k)) as [->|Hne];
    [rewrite lookup_delete; apply le_0_n|by rewrite lookup_delete_ne].
Qed.
Lemma there_step_del sv now m f k :
  (there (fst (token_step sv (TokenEvent now (TkDel m) f))) k <= there sv k)%nat.
Proof.
  destruct (decide (f = NotSent)) as [->|Hf]; [by rewrite step_notsent|]. rewrite step_del by done. unfold there.
  destruct (decide (token_key (vr_key m) (vr_token m) = k)) as [->|Hne];
    [rewrite lookup_delete; apply le_0_n|by rewrite lookup_delete_ne].
Qed.
Lemma there_step_add sv now m f k :
  (there (fst (token_step sv (TokenEvent now (TkAdd m) f))) k <=
   there sv k + if decide (token_key (cr_key m) (cr_token m) = k /\ f <> NotSent) then 1 else 0)%nat.
Proof.
  destruct (decide (f = NotSent)) as [->|Hf]; [rewrite step_notsent; lia|].
  destruct (decide (storable now (cr_duration m))) as [Hs|Hs].
  - rewrite step_add by done. cbn [fst]. unfold there. case_decide as Hk.
    + destruct Hk as [-> _]. rewrite lookup_insert. destruct (sv !! k); cbn; lia.
    + rewrite lookup_insert_ne; [lia|]. intros E. by apply Hk.
  - rewrite step_add_refused by done. cbn [fst]. lia.
Qed.
Lemma count_inv ls now es s tr k : sh_run ls (sh_init now) es = Some (s, tr) ->
  (length (accepted k tr) + there (sh_server s) k <= length (minted k tr))%nat.
Proof.
  revert s tr. induction es as [|e es IH] using rev_ind; intros s tr Hr.
  - injection Hr as <- <-. cbn. unfold there. by rewrite lookup_empty.
  - apply sh_run_snoc in Hr as (s1 & tr1 & o & H1 & H2 & ->). specialize (IH _ _ H1).
    rewrite minted_app, accepted_app, !app_length. destruct e as [i c|n x|n|n|c f'|j|d]; cbn [sh_step] in H2.
    + injection H2 as <- <-. cbn. lia.
    + destruct (sh_calls s1 !! n) as [[i p]|]; [|done].
      destruct (respond _ _ _ _ _) as [[[[sv p'] e'] f']|] eqn:Er; [|done].
      injection H2 as <- <-. apply respond_answered in Er as [_ Hsv Ht _ _ _ _]. cbn [sh_server]. subst sv.
      destruct e'; cbn [token_of]; try (cbn; lia).
      * pose proof (there_step_add (sh_server s1) (sh_now s1) m f' k) as Hx. cbn [minted accepted omap list_omap length].
        cbn [stores]. destruct (decide (f' = NotSent)) as [->|Hf]; [rewrite decide_False in Hx by (by intros [_ []]); cbn [length]; lia|].
        destruct (decide (token_key (cr_key m) (cr_token m) = k)) as [Hk|Hk]; cbn [length];
          [rewrite decide_True in Hx by done; lia|]. rewrite decide_False in Hx by (by intros []). lia.
      * pose proof (there_step_get (sh_server s1) (sh_now s1) m f' k) as Hx. cbn [minted accepted omap list_omap length].
        destruct a as [| |[[]|]]; try (cbn [length]; lia). case_decide as Hk; [|cbn [length]; lia].
        destruct (get_true_fate _ _ _ _ (Ht m true eq_refl)) as [-> Hpres]. rewrite Hk in Hpres.
        assert (there (sh_server s1) k = 1%nat) as Ha.
        { unfold present in Hpres. unfold there. destruct (sh_server s1 !! k) as [[]|]; done. }
        assert (there (fst (token_step (sh_server s1) (TokenEvent (sh_now s1) (TkGet m) Answered))) k = 0%nat) as Hb.
        { rewrite step_get by done. cbn [fst]. unfold there. by rewrite Hk, lookup_delete. }
        rewrite Hb. cbn [length]. lia.
    + destruct (sh_calls s1 !! n) as [[i [r| | | | | | | |]]|]; try done. injection H2 as <- <-. cbn. lia.
    + destruct (sh_calls s1 !! n) as [[i p]|]; try done. injection H2 as <- <-. cbn. lia.
    + destruct c as [m|m|m]; [done| |].
      * pose proof (there_step_get (sh_server s1) (sh_now s1) m f' k) as Hx. destruct (token_step _ _) as [sv x].
        injection H2 as <- <-. cbn in Hx |- *. lia.
      * pose proof (there_step_del (sh_server s1) (sh_now s1) m f' k) as Hx. destruct (token_step _ _) as [sv x].
        injection H2 as <- <-. cbn in Hx |- *. lia.
    + destruct (sh_late s1 !! j) as [[n m]|]; [|done].
      pose proof (there_step_add (sh_server s1) (sh_now s1) m AnswerLost k) as Hx. destruct (token_step _ _) as [sv x].
      injection H2 as <- <-. cbn [sh_server minted accepted omap list_omap stores length]. cbn [fst] in Hx.
      destruct (decide (token_key (cr_key m) (cr_token m) = k)) as [Hk|Hk]; cbn [length];
        [rewrite decide_True in Hx by done; lia|]. rewrite decide_False in Hx by (by intros []). lia.
    + injection H2 as <- <-. cbn. lia.
Qed.

(** A call stores at most one token, and is told about at most one. *)
Lemma after_store salt c es m a p e es' :
  p_run (program salt c) (es ++ [PeCacheResult m a]) = Some p -> p_run p (e :: es') = None.
Proof.
  intros H. destruct (before_store _ _ _ _ _ _ H) as (w & ip & cfg & tok & -> & Hk & -> & ->).
  cbn in H. rewrite decide_True in H by done. cbn in H. rewrite decide_True in H by done. cbn in H.
  rewrite decide_True in H by done. cbn in H. rewrite decide_True in H by done. cbn in H.
  unfold cached_into_result in H. rewrite Hk, decide_True in H by done. injection H as <-.
  destruct a as [| |[[]|]]; by destruct e.
Qed.
Lemma after_verify salt c es m a p e es' :
  p_run (program salt c) (es ++ [PeVerify m a]) = Some p -> p_run p (e :: es') = None.
Proof.
  intros H. destruct (before_verify _ _ _ _ _ _ H) as [-> ->]. cbn in H. rewrite decide_True in H by done.
  injection H as <-. destruct a as [| |[[]|]]; by destruct e.
Qed.
Lemma requests_split n tr1 t e f tr2 :
  requests_of n (tr1 ++ XoDid n t e f :: tr2) = requests_of n tr1 ++ e :: requests_of n tr2.
Proof. rewrite requests_of_app. cbn. by rewrite decide_True. Qed.
Lemma call_runs ls now es s tr n : sh_run ls (sh_init now) es = Some (s, tr) -> requests_of n tr <> [] ->
  exists i p, follows ls tr n i p.
Proof.
  intros Hr Hne. pose proof (run_shinv _ _ _ _ _ Hr) as Hi. destruct (decide (n < sh_next s)%nat) as [Hlt|Hge].
  - destruct (hv_old _ _ _ Hi n Hlt) as (i & p & Hf & _). eauto.
  - destruct (hv_new _ _ _ Hi n) as (_ & E & _); [lia|done].
Qed.
(** In a list of calls by events each of which is its call's last, no call is twice. *)
Lemma last_once ls now es s tr (g : shout -> option nat) :
  sh_run ls (sh_init now) es = Some (s, tr) ->
  (forall o n, g o = Some n -> exists t e f, o = XoDid n t e f /\
     forall salt c es1 p e' es2, p_run (program salt c) (es1 ++ [e]) = Some p -> p_run p (e' :: es2) = None) ->
  NoDup (omap g tr).
Proof.
  intros Hr Hg.
  assert (Hpre : forall tr1 tr2, tr = tr1 ++ tr2 -> NoDup (omap g tr1)); [|apply (Hpre tr []); by rewrite app_nil_r].
  intros tr1. induction tr1 as [|o tr1 IH] using rev_ind; intros tr2 E; [constructor|].
  rewrite omap_app. apply NoDup_app. split; [|split].
  - apply (IH ([o] ++ tr2)). by rewrite E, app_assoc.
  - intros n Hn Ho. cbn in Ho. destruct (g o) as [n'|] eqn:Eo; [|by apply elem_of_nil in Ho].
    apply elem_of_list_singleton in Ho as <-. apply elem_of_list_omap in Hn as (o1 & Ho1 & E1).
    apply Hg in E1 as (t1 & e1 & f1 & -> & Hlast). apply Hg in Eo as (t2 & e2 & f2 & -> & _).
    apply elem_of_list_split in Ho1 as (ta & tb & ->).
    assert (Hreq : requests_of n tr = (requests_of n ta ++ [e1]) ++ requests_of n tb ++ e2 :: requests_of n tr2).
    { rewrite E, <- !app_assoc. cbn [app]. by rewrite !requests_split. }
    destruct (call_runs _ _ _ _ _ n Hr) as (i & p & c & _ & _ & Hp); [rewrite Hreq; by destruct (requests_of n ta)|].
    rewrite Hreq in Hp. apply p_run_prefix in Hp as (p1 & Hp1 & Hp2).
    destruct (requests_of n tb ++ e2 :: requests_of n tr2) as [|e' es'] eqn:Ee; [by destruct (requests_of n tb)|].
    by rewrite (Hlast _ _ _ _ _ _ Hp1) in Hp2.
  - cbn. destruct (g o); [apply NoDup_singleton|constructor].
Qed.
(** A call whose store is not over yet has nothing to ask for any more. *)
Lemma stored_ends ls tr s n i p m a t f e : shinv ls tr s -> sh_calls s !! n = Some (i, p) ->
  XoDid n t (PeCacheResult m a) f ∈ tr -> p_step p e = None.
Proof.
  intros H Hn Hin. destruct (shinv_live _ _ _ _ _ _ H Hn) as (_ & (c & _ & _ & Hp) & _).
  apply elem_of_list_split in Hin as (ta & tb & ->). rewrite requests_split in Hp.
  rewrite cons_middle, app_assoc in Hp. apply p_run_prefix in Hp as (p1 & Hp1 & Hp2).
  destruct (requests_of n tb) as [|e' es'].
  - injection Hp2 as ->. pose proof (after_store _ _ _ _ _ _ e [] Hp1) as Hx. cbn in Hx. by destruct (p_step p e).
  - by rewrite (after_store _ _ _ _ _ _ _ _ Hp1) in Hp2.
Qed.
(** Stores that were given up. *)
Record lateinv (tr : list shout) (s : shared) : Prop := {
  lv_late : forall n m, (n, m) ∈ sh_late s -> exists tr1 t a tr2, tr = tr1 ++ XoDid n t (PeCacheResult m a) NotSent :: tr2;
  lv_done : forall tr1 n t m tr2, tr = tr1 ++ XoLate n t m :: tr2 -> exists t' a, XoDid n t' (PeCacheResult m a) NotSent ∈ tr1 }.
Lemma late_at ls now es s tr : sh_run ls (sh_init now) es = Some (s, tr) -> lateinv tr s.
Proof.
  revert s tr. induction es as [|e es IH] using rev_ind; intros s tr Hr.
  { injection Hr as <- <-. split; [by intros n m Hx%elem_of_nil|]. by intros [] ? ? ? ?. }
  apply sh_run_snoc in Hr as (s1 & tr1 & o & H1 & H2 & ->). specialize (IH _ _ H1).
  assert (Hgen : forall late, sh_late s = late -> (forall n m, (n, m) ∈ late -> (n, m) ∈ sh_late s1 \/
      exists t a, o = [XoDid n t (PeCacheResult m a) NotSent]) ->
    (forall n t m, XoLate n t m ∈ o -> (n, m) ∈ sh_late s1) -> (length o <= 1)%nat -> lateinv (tr1 ++ o) s).
  { intros late <- Hl Hd Hlen. split.
    - intros n m Hx. destruct (Hl n m Hx) as [Hx'|(t & a & ->)].
      + destruct (lv_late _ _ IH n m Hx') as (ta & t & a & tb & ->). exists ta, t, a, (tb ++ o). by rewrite <- app_assoc.
      + by exists tr1, t, a, [].
    - intros ta n t m tb E. destruct (nil_or_snoc tb) as [->|(tc & x & ->)].
      + destruct o as [|y [|]]; [rewrite app_nil_r in E; by apply (lv_done _ _ IH ta n t m [])| |cbn in Hlen; lia].
        apply app_inj_tail in E as [<- ->]. destruct (lv_late _ _ IH n m (Hd n t m ltac:(by left))) as (td & t' & a & te & ->).
        exists t', a. apply elem_of_app. right. by left.
      + destruct o as [|y [|]]; [rewrite app_nil_r in E; by apply (lv_done _ _ IH ta n t m (tc ++ [x]))| |cbn in Hlen; lia].
        rewrite app_comm_cons, app_assoc in E. apply app_inj_tail in E as [E _]. by apply (lv_done _ _ IH ta n t m tc). }
  pose proof (step_one _ _ _ _ _ H2) as Hlen.
  destruct e as [i c|n x|n|n|c f'|j|d]; cbn [sh_step] in H2.
  - injection H2 as <- <-. apply (Hgen (sh_late s1)); [done|by left|by intros n t m Hx%elem_of_list_singleton|done].
  - destruct (sh_calls s1 !! n) as [[i p]|]; [|done].
    destruct (respond _ _ _ _ _) as [[[[sv p'] e'] f']|] eqn:Er; [|done]. injection H2 as <- <-.
    apply (Hgen (sh_late s1 ++ given_up n e' f')); [done| |by intros n' t m Hx%elem_of_list_singleton|done].
    intros n' m Hx. apply elem_of_app in Hx as [Hx|Hx]; [by left|right]. unfold given_up in Hx.
    destruct e'; try (by apply elem_of_nil in Hx). destruct f'; try (by apply elem_of_nil in Hx).
    apply elem_of_list_singleton in Hx as [= -> ->]. by eexists _, _.
  - destruct (sh_calls s1 !! n) as [[i [r| | | | | | | |]]|]; try done. injection H2 as <- <-.
    apply (Hgen (sh_late s1)); [done|by left|by intros n' t m Hx%elem_of_list_singleton|done].
  - destruct (sh_calls s1 !! n) as [[i p]|]; try done. injection H2 as <- <-.
    apply (Hgen (sh_late s1)); [done|by left|by intros n' t m Hx%elem_of_list_singleton|done].
  - destruct c as [m|m|m]; [done| |]; destruct (token_step _ _) as [sv x]; injection H2 as <- <-;
      (apply (Hgen (sh_late s1)); [done|by left|by intros n' t m' Hx%elem_of_list_singleton|done]).
  - destruct (sh_late s1 !! j) as [[n m]|] eqn:Ej; [|done]. destruct (token_step _ _) as [sv x]. injection H2 as <- <-.
    apply (Hgen (delete j (sh_late s1))); [done| | |done].
    + intros n' m' Hx. left. rewrite (delete_Permutation _ _ _ Ej). by right.
    + intros n' t m' Hx%elem_of_list_singleton. injection Hx as -> _ ->. by apply elem_of_list_lookup_2 in Ej.
  - injection H2 as <- <-. apply (Hgen (sh_late s1)); [done|by left|by intros n' t m Hx%elem_of_nil|done].
Qed.
Lemma mint_asked ls now es s tr k n : sh_run ls (sh_init now) es = Some (s, tr) -> n ∈ minted k tr ->
  exists t m a f, XoDid n t (PeCacheResult m a) f ∈ tr /\ token_key (cr_key m) (cr_token m) = k.
Proof.
  intros Hr Hn. apply elem_of_list_omap in Hn as (o & Ho & Hx). destruct (stores o) as [[[n' t] m]|] eqn:Es; [|done].
  case_decide as Hk; [|done]. injection Hx as ->. destruct o as [|n' t' [] f| | | |n' t' m']; try done; cbn in Es.
  - case_decide; [done|]. injection Es as -> -> ->. by exists t, m, a, f.
  - injection Es as -> -> ->. apply elem_of_list_split in Ho as (ta & tb & E).
    destruct (lv_done _ _ (late_at _ _ _ _ _ Hr) _ _ _ _ _ E) as (t' & a & Hin). exists t', m, a, NotSent.
    split; [|done]. rewrite E. apply elem_of_app. by left.
Qed.
(** A store that is executed: which call asked for it, and why. *)
Lemma stored_by ls now es s tr tr1 o n t m tr2 :
  sh_run ls (sh_init now) es = Some (s, tr) -> tr = tr1 ++ o :: tr2 -> stores o = Some (n, t, m) ->
  exists i w ip cfg tok, XoCall n i (CVerifyPow w ip) ∈ tr1 /\ cc_key cfg = w_key w /\
    m = CacheResult tok (w_key w) (cc_duration cfg) /\ passes (ls i) (checked_work w cfg) /\
    PeRetrieve (VerifyCaptchaResult (w_string w) (w_key w)) (An (Ok (Some cfg))) ∈ requests_of n tr1 /\
    PeDraw tok ∈ requests_of n tr1.
Proof.
  intros Hr E Hst. destruct o as [|n' t' [] f| | | |n' t' m']; try done; cbn in Hst.
  - case_decide; [done|]. injection Hst as -> -> ->.
    destruct (store_at _ _ _ _ _ _ _ _ _ _ _ _ Hr E) as (i & w & ip & cfg & tok & Hc & Hk & -> & Hp & Hreq).
    exists i, w, ip, cfg, tok. split; [done|]. split; [done|]. split; [done|]. split; [done|]. rewrite Hreq.
    split; [by left|do 3 right; by left].
  - injection Hst as -> -> ->. destruct (lv_done _ _ (late_at _ _ _ _ _ Hr) _ _ _ _ _ E) as (t' & a & Hin).
    apply elem_of_list_split in Hin as (ta & tb & ->). rewrite <- app_assoc in E. cbn [app] in E.
    destruct (store_at _ _ _ _ _ _ _ _ _ _ _ _ Hr E) as (i & w & ip & cfg & tok & Hc & Hk & -> & Hp & Hreq).
    exists i, w, ip, cfg, tok. split; [apply elem_of_app; by left|]. split; [done|]. split; [done|]. split; [done|].
    rewrite requests_of_app, Hreq. split; apply elem_of_app; left; [by left|do 3 right; by left].
Qed.
Lemma mint_inv ls now es s tr k : sh_run ls (sh_init now) es = Some (s, tr) ->
  NoDup (minted k tr) /\ NoDup (sh_late s).*1 /\ forall n, n ∈ minted k tr -> n ∉ (sh_late s).*1.
Proof.
  revert s tr. induction es as [|e es IH] using rev_ind; intros s tr Hr.
  { injection Hr as <- <-. split; [constructor|]. split; [constructor|]. by intros n Hx%elem_of_nil. }
  apply sh_run_snoc in Hr as (s1 & tr1 & o & H1 & H2 & ->). destruct (IH _ _ H1) as (I1 & I2 & I3).
  pose proof (run_shinv _ _ _ _ _ H1) as Hi. pose proof (late_at _ _ _ _ _ H1) as Hl.
  assert (Hgen : minted k o = [] -> sh_late s = sh_late s1 ->
    NoDup (minted k (tr1 ++ o)) /\ NoDup (sh_late s).*1 /\ forall n, n ∈ minted k (tr1 ++ o) -> n ∉ (sh_late s).*1).
  { intros E1 E2. by rewrite minted_app, E1, app_nil_r, E2. }
  destruct e as [i c|n x|n|n|c f'|j|d]; cbn [sh_step] in H2.
  - injection H2 as <- <-. by apply Hgen.
  - destruct (sh_calls s1 !! n) as [[i p]|] eqn:En; [|done].
    destruct (respond _ _ _ _ _) as [[[[sv p'] e'] f']|] eqn:Er; [|done]. injection H2 as <- <-.
    apply respond_answered in Er as [Hstep _ _ _ _ _ _].
    destruct e'; try (apply Hgen; [done|cbn; apply app_nil_r]).
    assert (Hnew : (n ∉ minted k tr1) /\ n ∉ (sh_late s1).*1).
    { split.
      - intros Hn. destruct (mint_asked _ _ _ _ _ _ _ H1 Hn) as (t & m' & a' & f & Hin & _).
        by rewrite (stored_ends _ _ _ _ _ _ _ _ _ _ _ Hi En Hin) in Hstep.
      - intros Hn. apply elem_of_list_fmap in Hn as ([n0 m'] & Hn0 & Hn). cbn in Hn0. subst n0.
        destruct (lv_late _ _ Hl _ _ Hn) as (ta & t & a' & tb & E).
        rewrite (stored_ends _ _ _ _ _ _ m' a' t NotSent (PeCacheResult m a) Hi En) in Hstep; [done|]. rewrite E.
        apply elem_of_app. right. by left. }
    destruct Hnew as [N1 N2]. rewrite minted_app. cbn [sh_late minted omap list_omap stores given_up].
    destruct (decide (f' = NotSent)) as [->|Hf]; cbn [given_up].
    + rewrite app_nil_r. split; [done|]. rewrite fmap_app. split.
      * apply NoDup_app. split; [done|]. split; [|apply NoDup_singleton]. intros y Hy Hy'%elem_of_list_singleton. cbn in Hy'. by subst y.
      * intros y Hy. rewrite not_elem_of_app. split; [by apply I3|]. intros Hy'%elem_of_list_singleton. cbn in Hy'. by subst y.
    + assert (match f' with NotSent => [(n, m)] | _ => [] end = []) as -> by (by destruct f'). rewrite app_nil_r.
      destruct (decide (token_key (cr_key m) (cr_token m) = k)); [|by rewrite app_nil_r]. split; [|split; [done|]].
      * apply NoDup_app. split; [done|]. split; [|apply NoDup_singleton]. by intros y Hy Hy'%elem_of_list_singleton; subst y.
      * intros y [Hy|Hy%elem_of_list_singleton]%elem_of_app; [by apply I3|by subst y].
  - destruct (sh_calls s1 !! n) as [[i [r| | | | | | | |]]|]; try done. injection H2 as <- <-. by apply Hgen.
  - destruct (sh_calls s1 !! n) as [[i p]|]; try done. injection H2 as <- <-. by apply Hgen.
  - destruct c as [m|m|m]; [done| |]; destruct (token_step _ _) as [sv x]; injection H2 as <- <-; by apply Hgen.
  - destruct (sh_late s1 !! j) as [[n m]|] eqn:Ej; [|done]. destruct (token_step _ _) as [sv x]. injection H2 as <- <-.
    rewrite minted_app. cbn [sh_late minted omap list_omap stores].
    pose proof (delete_Permutation _ _ _ Ej) as Hperm.
    assert (Hp1 : (sh_late s1).*1 ≡ₚ n :: (delete j (sh_late s1)).*1) by (rewrite Hperm at 1; done).
    assert (Hin : n ∈ (sh_late s1).*1) by (rewrite Hp1; by left).
    rewrite Hp1 in I2. apply NoDup_cons in I2 as [I2 I2'].
    assert (I3' : forall y, y ∈ minted k tr1 -> y ∉ (delete j (sh_late s1)).*1).
    { intros y Hy Hy'. apply (I3 y Hy). rewrite Hp1. by right. }
    destruct (decide (token_key (cr_key m) (cr_token m) = k)); [|by rewrite app_nil_r]. split; [|split; [done|]].
    + apply NoDup_app. split; [done|]. split; [|apply NoDup_singleton]. intros y Hy Hy'%elem_of_list_singleton. subst y. by apply (I3 n).
    + intros y [Hy|Hy%elem_of_list_singleton]%elem_of_app; [by apply I3'|by subst y].
  - injection H2 as <- <-. by apply Hgen.
Qed.
Lemma minted_once ls now es s tr k : sh_run ls (sh_init now) es = Some (s, tr) -> NoDup (minted k tr).
Proof. intros Hr. by apply (mint_inv _ _ _ _ _ k Hr). Qed.
Lemma accepted_once ls now es s tr k : sh_run ls (sh_init now) es = Some (s, tr) -> NoDup (accepted k tr).
Proof.
  intros Hr. eapply last_once; [done|]. intros o n Ho. destruct o as [|n' t [] f| | | |]; try done.
  destruct a as [| |[[]|]]; try done.
  case_decide; [|done]. injection Ho as ->. eexists _, _, _. split; [done|]. intros. by eapply after_verify.
Qed.

(** * Challenges *)
Lemma before_issue salt c es m a p : p_run (program salt c) (es ++ [PeCachePoW m a]) = Some p ->
  exists v, c = CGetPow (cp_key m) /\ es = [PeVisit (cp_key m) (An (Ok (Some v))); PeDraw (cp_string m)] /\
    (forall e' es', p_run p (e' :: es') = None).
Proof.
  destruct c as [id|w ip|m'].
  - intros H. cbn [program] in H. destruct es as [|[id' x|x|m' x|m' x|ip' q x|q b|m' x|m' x] es]; try discriminate H.
    cbn in H. case_decide; [subst id'|done]. destruct x as [| |[[v|]|e]]; try (by apply p_run_ret in H as [H _]; destruct es).
    destruct es as [|[id'' x|x|m' x|m' x|ip' q x|q b|m' x|m' x] es]; try discriminate H. cbn in H.
    destruct es as [|[id'' y|y|m' y|m' y|ip' q y|q b|m' y|m' y] es]; try discriminate H; cbn in H.
    + case_decide; [subst m|done]. exists v. split; [done|]. split; [done|]. injection H as <-.
      intros e' es'. destruct a as [| |[[]|]]; by destruct e'.
    + case_decide; [|done]. destruct y as [| |[[]|e]]; by apply p_run_ret in H as [H _]; destruct es.
  - intros H. exfalso. cbn [program] in H. destruct es as [|[id' x|x|m' x|m' x|ip' q x|q b|m' x|m' x] es]; try discriminate H.
    cbn in H. case_decide; [subst m'|done].
    destruct x as [| |[[cfg|]|e]]; try (by apply p_run_ret in H as [H _]; destruct es).
    cbn in H. case_decide as Hk; [|by apply p_run_ret in H as [H _]; destruct es].
    destruct es as [|[id' x|x|m' x|m' x|ip' q x|q b|m' x|m' x] es].
    1: discriminate H. all: try discriminate H.
    cbn in H. case_decide as Hq; [injection Hq as <- <-|done].
    destruct x as [[[]|e]|]; try (by apply p_run_ret in H as [H _]; destruct es).
    destruct es as [|[id' x|x|m' x|m' x|ip' q x|q b|m' x|m' x] es]; try discriminate H. cbn in H.
    case_decide; [subst q|done]. destruct b as [[]|]; try (by apply p_run_ret in H as [H _]; destruct es).
    destruct es as [|[id' x|tok|m' x|m' x|ip' q x|q b|m' x|m' x] es]; try discriminate H. cbn in H.
    destruct es as [|[id' x|x|m' x|m' x|ip' q x|q b|m' x|m' x] es]; try discriminate H.
    cbn in H. case_decide; [|done]. destruct x as [| |[[]|e]]; by apply p_run_ret in H as [H _]; destruct es.
  - intros H. exfalso. cbn [program] in H. destruct es as [|[id' x|x|m'' x|m'' x|ip' q x|q b|m'' x|m'' x] es]; try discriminate H.
    cbn in H. case_decide; [|done]. destruct x as [| |[b|e]]; by apply p_run_ret in H as [H _]; destruct es.
Qed.
Lemma issued_once ls now es s tr key str : sh_run ls (sh_init now) es = Some (s, tr) -> NoDup (issued key str tr).
Proof.
  intros Hr. eapply last_once; [done|]. intros o n Ho. destruct o as [|n' t [] f| | | |]; try done.
  case_decide; [|done]. injection Ho as ->. eexists _, _, _. split; [done|]. intros salt c es1 p e' es2 Hp.
  by apply before_issue in Hp as (v & _ & _ & Hp).
Qed.
Lemma issue_drew ls now es s tr key str n : sh_run ls (sh_init now) es = Some (s, tr) -> n ∈ issued key str tr ->
  exists t f i, XoDid n t (PeDraw str) f ∈ tr /\ XoCall n i (CGetPow key) ∈ tr.
Proof.
  intros Hr Hn. apply elem_of_list_omap in Hn as (o & Ho & Hx). destruct o as [|n' t [] f| | | |]; try done.
  case_decide as Hd; [|done]. injection Hx as ->. injection Hd as Ek Es.
  apply elem_of_list_split in Ho as (ta & tb & E).
  destruct (did_at _ _ _ _ _ _ _ _ _ _ _ Hr E) as (i & p & p' & sv & (c & Hc & _ & Hp) & [Hs _ _ _ _ _ _]).
  pose proof (p_run_snoc _ _ _ _ _ Hp Hs) as Hp'. apply before_issue in Hp' as (v & -> & Hes & _).
  assert (PeDraw str ∈ requests_of n ta) as (t' & f' & Hd)%requests_elem.
  { rewrite Hes, Es. right. by left. }
  exists t', f', i. rewrite E, Ek in *. split; apply elem_of_app; by left.
Qed.
Lemma mint_drew ls now es s tr k n : sh_run ls (sh_init now) es = Some (s, tr) -> n ∈ minted k tr ->
  exists i w ip cfg tok t f, XoCall n i (CVerifyPow w ip) ∈ tr /\ cc_key cfg = w_key w /\ passes (ls i) (checked_work w cfg) /\
    XoDid n t (PeDraw tok) f ∈ tr /\ k = token_key (w_key w) tok.
Proof.
  intros Hr Hn. destruct (mint_asked _ _ _ _ _ _ _ Hr Hn) as (t & m & a & f & Ho & Ek).
  apply elem_of_list_split in Ho as (ta & tb & E).
  destruct (store_at _ _ _ _ _ _ _ _ _ _ _ _ Hr E) as (i & w & ip & cfg & tok & Hc & Hk & -> & Hp & Hreq).
  assert (PeDraw tok ∈ requests_of n ta) as (t' & f' & Hd)%requests_elem.
  { rewrite Hreq. do 3 right. by left. }
  exists i, w, ip, cfg, tok, t', f'. rewrite E. split; [apply elem_of_app; by left|]. split; [done|]. split; [done|].
  split; [apply elem_of_app; by left|done].
Qed.
(** Two calls that drew the same string. *)
Lemma two_draws tr n1 n2 t1 t2 s f1 f2 : draws_distinct tr -> XoDid n1 t1 (PeDraw s) f1 ∈ tr ->
  XoDid n2 t2 (PeDraw s) f2 ∈ tr -> n1 = n2.
Proof.
  intros Hd H1 H2. destruct (decide (n1 = n2)) as [|Hne]; [done|exfalso].
  apply elem_of_list_split in H1 as (ta & tb & E). rewrite E in H2.
  apply elem_of_app in H2 as [H2|H2].
  - apply elem_of_list_split in H2 as (tc & td & ->). rewrite <- app_assoc in E. cbn in E. by eapply Hd.
  - apply elem_of_cons in H2 as [H2|H2]; [congruence|]. apply elem_of_list_split in H2 as (tc & td & ->). by eapply Hd.
Qed.
Lemma NoDup_all_eq {A} (xs : list A) : NoDup xs -> (forall x y, x ∈ xs -> y ∈ xs -> x = y) -> (length xs <= 1)%nat.
Proof.
  intros Hn H. destruct xs as [|x [|y xs]]; cbn; [lia|lia|]. exfalso. apply NoDup_cons in Hn as [Hn _].
  apply Hn. rewrite (H x y); [by left|by left|right; by left].
Qed.
Lemma token_fetched ls now es s tr n i w ip tok d : sh_run ls (sh_init now) es = Some (s, tr) ->
  XoCall n i (CVerifyPow w ip) ∈ tr -> XoRet n (RVerifyPow (Ok (tok, d))) ∈ tr -> n ∈ fetched (w_key w) (w_string w) tr.
Proof.
  intros Hr Hc Hin. destruct (ret_at _ _ _ _ _ _ _ Hr Hin) as (i' & c & Hc' & Hp).
  destruct (call_once _ _ _ _ _ _ _ _ _ _ Hr Hc Hc') as [-> ->].
  apply verify_pow_ends in Hp as ([x|] & Hx & Hcon); [|done]. injection Hx as <-. cbn in Hcon.
  destruct Hcon as (cfg & Hreq & _).
  assert (PeRetrieve (VerifyCaptchaResult (w_string w) (w_key w)) (An (Ok (Some cfg))) ∈ requests_of n tr)
    as (t & f & Hd)%requests_elem; [rewrite Hreq; by left|].
  apply elem_of_list_omap. eexists. split; [exact Hd|]. cbn. by rewrite decide_True.
Qed.
