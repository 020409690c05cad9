(** Two executions that differ in one drawn string, which nobody names, go the same way. *)
From Coq Require Import Ascii.
From Coq Require Import ZifyBool ZifyN ZifyNat Lia.
From Verif Require Import Model.Base Model.MCaptcha Model.HashCache Model.Pow Model.System Model.Json Model.Serde Model.Redis
  Model.RedisActor Model.RedisTokens Model.SystemProgram Model.SystemShared Spec.RedisSpec Spec.GuessSpec Spec.RedisGuessSpec
  Proofs.JsonProofs Proofs.RedisProofs.

Lemma chars_app (a b : string) : list_ascii_of_string (a +:+ b) = list_ascii_of_string a ++ list_ascii_of_string b.
Proof. induction a as [|c a IH]; [done|]. change (String c a +:+ b) with (String c (a +:+ b)). cbn. f_equal. exact IH. Qed.
Lemma last_part_after p x : last_part (p +:+ ":" +:+ x) = last_part x.
Proof.
  induction p as [|c p IH].
  - change ("" +:+ ":" +:+ x) with (String ":"%char x). cbn [last_part]. destruct (decide (":"%char ∈ list_ascii_of_string x)) as [H|H]; [done|].
    rewrite decide_True by done. induction x as [|d x IH]; [done|]. cbn [last_part].
    cbn [list_ascii_of_string] in H. rewrite elem_of_cons in H. rewrite decide_False by tauto. rewrite decide_False; [done|].
    intros ->. tauto.
  - change (String c p +:+ ":" +:+ x) with (String c (p +:+ ":" +:+ x)). cbn [last_part].
    rewrite decide_True; [exact IH|]. rewrite chars_app. apply elem_of_app. right. cbn. by left.
Qed.
Lemma last_part_plain x : no_colon x -> last_part x = x.
Proof.
  destruct x as [|c x]; [done|]. unfold no_colon. cbn [list_ascii_of_string last_part]. rewrite elem_of_cons. intros H.
  rewrite decide_False by tauto. rewrite decide_False; [done|]. intros ->. tauto.
Qed.
Lemma last_part_key k t : last_part (token_key k t) = last_part t.
Proof. unfold token_key. rewrite <- app_assoc_s. apply last_part_after. Qed.
Lemma app_inj_r (a b c : string) : a +:+ c = b +:+ c -> a = b.
Proof.
  revert b. induction a as [|x a IH]; intros [|y b]; [done|intros E|intros E|].
  1,2: exfalso; apply (f_equal String.length) in E; rewrite !length_app_s in E; cbn in E; rewrite ?length_app_s in E; lia.
  intros [= -> E]. f_equal. by apply IH.
Qed.

Section secrets.
  Context (c d : string) (Hc : no_colon c) (Hd : no_colon d).

  (** Strings that play the same part in the two executions. *)
  Definition same (t t' : string) : Prop :=
    (t = c /\ t' = d) \/ (t = t' /\ last_part t <> c /\ last_part t <> d).
  Lemma same_named t : last_part t <> c -> last_part t <> d -> same t t.
  Proof. by right. Qed.
  Lemma same_secret : same c d.
  Proof. by left. Qed.
  Lemma same_hidden t t' : same t t' -> hidden c t = hidden d t'.
  Proof.
    unfold hidden. intros [[-> ->]|(<- & H1 & H2)]; [by rewrite !decide_True|]. rewrite !decide_False; [done| |].
    - intros ->. apply H2. by apply last_part_plain.
    - intros ->. apply H1. by apply last_part_plain.
  Qed.
  Lemma keys_same k k2 t t' t2 t2' : same t t' -> same t2 t2' ->
    token_key k t = token_key k2 t2 <-> token_key k t' = token_key k2 t2'.
  Proof.
    assert (forall k x y, token_key k x = token_key k2 y -> last_part x = last_part y) as Hl.
    { intros k0 x y E. by rewrite <- (last_part_key k0 x), E, last_part_key. }
    intros [[-> ->]|(<- & H1 & H2)] [[-> ->]|(<- & H3 & H4)].
    - unfold token_key. split; intros E; apply app_inj_l, app_inj_r in E; by subst.
    - pose proof (Hl k c t2) as E1. pose proof (Hl k d t2) as E2. rewrite (last_part_plain c Hc) in E1.
      rewrite (last_part_plain d Hd) in E2. split; intros E; exfalso; [by apply H3; rewrite E1|by apply H4; rewrite E2].
    - pose proof (Hl k t c) as E1. pose proof (Hl k t d) as E2. rewrite (last_part_plain c Hc) in E1.
      rewrite (last_part_plain d Hd) in E2. split; intros E; exfalso; [by apply H1; rewrite E1|by apply H2; rewrite E2].
    - done.
  Qed.

  (** ** The server *)
  Definition srel (s s' : server) : Prop :=
    forall k t t', same t t' -> s !! token_key k t = s' !! token_key k t'.
  Lemma srel_insert s s' k t t' x : same t t' -> srel s s' ->
    srel (<[token_key k t := x]> s) (<[token_key k t' := x]> s').
  Proof.
    intros Ht Hs k2 t2 t2' H2. destruct (decide (token_key k t = token_key k2 t2)) as [E|E].
    - pose proof (proj1 (keys_same _ _ _ _ _ _ Ht H2) E) as E'. rewrite <- E, <- E'. by rewrite !lookup_insert.
    - rewrite !lookup_insert_ne; [by apply Hs| |done]. intros E'. apply E. by apply (keys_same _ _ _ _ _ _ Ht H2).
  Qed.
  Lemma srel_delete s s' k t t' : same t t' -> srel s s' ->
    srel (delete (token_key k t) s) (delete (token_key k t') s').
  Proof.
    intros Ht Hs k2 t2 t2' H2. destruct (decide (token_key k t = token_key k2 t2)) as [E|E].
    - pose proof (proj1 (keys_same _ _ _ _ _ _ Ht H2) E) as E'. rewrite <- E, <- E'. by rewrite !lookup_delete.
    - rewrite !lookup_delete_ne; [by apply Hs| |done]. intros E'. apply E. by apply (keys_same _ _ _ _ _ _ Ht H2).
  Qed.
  Lemma srel_present now s s' k t t' : same t t' -> srel s s' ->
    present now s (token_key k t) = present now s' (token_key k t').
  Proof. intros Ht Hs. unfold present. by rewrite (Hs k t t' Ht). Qed.

  (** ** Messages, requests and results *)
  Definition cr_same (m m' : cache_result) : Prop :=
    same (cr_token m) (cr_token m') /\ cr_key m = cr_key m' /\ cr_duration m = cr_duration m'.
  Definition vr_same (m m' : verify_captcha_result) : Prop := same (vr_token m) (vr_token m') /\ vr_key m = vr_key m'.
  Definition cp_same (m m' : cache_pow) : Prop :=
    same (cp_string m) (cp_string m') /\ cp_difficulty_factor m = cp_difficulty_factor m' /\
    cp_duration m = cp_duration m' /\ cp_key m = cp_key m'.
  Inductive tk_same : token_call -> token_call -> Prop :=
  | tks_add m m' : cr_same m m' -> tk_same (TkAdd m) (TkAdd m')
  | tks_get m m' : vr_same m m' -> tk_same (TkGet m) (TkGet m')
  | tks_del m m' : vr_same m m' -> tk_same (TkDel m) (TkDel m').
  Inductive ret_same : ret -> ret -> Prop :=
  | rs_eq r : (forall x, r <> RGetPow (Ok (Some x))) -> (forall x, r <> RVerifyPow (Ok x)) -> ret_same r r
  | rs_pow x x' f s : same x x' -> ret_same (RGetPow (Ok (Some (PoWConfig x f s)))) (RGetPow (Ok (Some (PoWConfig x' f s))))
  | rs_token x x' f : same x x' -> ret_same (RVerifyPow (Ok (x, f))) (RVerifyPow (Ok (x', f))).

  Lemma token_step_same s s' now tc tc' f : tk_same tc tc' -> srel s s' ->
    srel (token_step s (TokenEvent now tc f)).1 (token_step s' (TokenEvent now tc' f)).1 /\
    (token_step s (TokenEvent now tc f)).2 = (token_step s' (TokenEvent now tc' f)).2.
  Proof.
    intros Ht Hs. unfold token_step. cbn [te_call te_now te_fate].
    destruct Ht as [[x k n] [x' k' n'] (H1 & H2 & H3)|[x k] [x' k'] (H1 & H2)|[x k] [x' k'] (H1 & H2)];
      cbn in H1, H2; subst k'; try (cbn in H3; subst n');
      cbn [token_cmd lift rc_cmd rc_answer ro_cmd ro_reply r_add_token r_get_token r_delete_token
           cr_key cr_token cr_duration vr_key vr_token serve].
    - destruct (digits (print_num n)) as [secs|]; [|by destruct f].
      destruct (ex_ok now secs); [|by destruct f].
      destruct f; (split; [|reflexivity]); cbn [fst]; [by apply srel_insert..|done].
    - rewrite (srel_present now s s' k x x' H1 Hs).
      destruct f; (split; [|reflexivity]); cbn [fst]; [by apply srel_delete..|done].
    - rewrite (srel_present now s s' k x x' H1 Hs).
      destruct f; (split; [|reflexivity]); cbn [fst]; [by apply srel_delete..|done].
  Qed.

  (** ** Programs *)
  Inductive prel : prog -> prog -> Prop :=
  | pr_ret r r' : ret_same r r' -> prel (PRet r) (PRet r')
  | pr_visit id k k' : (forall a, prel (k a) (k' a)) -> prel (PVisit id k) (PVisit id k')
  | pr_draw k k' : (forall x x', same x x' -> prel (k x) (k' x')) -> prel (PDraw k) (PDraw k')
  | pr_cache m m' k k' : cp_same m m' -> (forall a, prel (k a) (k' a)) -> prel (PCachePoW m k) (PCachePoW m' k')
  | pr_retrieve m k k' : (forall a, prel (k a) (k' a)) -> prel (PRetrieve m k) (PRetrieve m k')
  | pr_submit ip q k k' : (forall a, prel (k a) (k' a)) -> prel (PSubmit ip q k) (PSubmit ip q k')
  | pr_verdict q k k' : (forall a, prel (k a) (k' a)) -> prel (PVerdict q k) (PVerdict q k')
  | pr_result m m' k k' : cr_same m m' -> (forall a, prel (k a) (k' a)) -> prel (PCacheResult m k) (PCacheResult m' k')
  | pr_verify m m' k k' : vr_same m m' -> (forall a, prel (k a) (k' a)) -> prel (PVerify m k) (PVerify m' k').
  Lemma prel_err {A} (r : result A -> ret) e :
    (forall x, r (Err e) <> RGetPow (Ok (Some x))) -> (forall x, r (Err e) <> RVerifyPow (Ok x)) -> prel (PRet (r (Err e))) (PRet (r (Err e))).
  Proof. intros H1 H2. by apply pr_ret, rs_eq. Qed.
  Lemma prel_get_pow salt id : prel (get_pow_prog salt id) (get_pow_prog salt id).
  Proof.
    apply pr_visit. intros [| |[[v|]|e]]; try (by apply pr_ret, rs_eq). apply pr_draw. intros x x' Hx.
    apply pr_cache; [by repeat split|]. intros [| |[[]|e]]; try (by apply pr_ret, rs_eq). by apply pr_ret, rs_pow.
  Qed.
  Lemma prel_verify_pow w ip : prel (verify_pow_prog w ip) (verify_pow_prog w ip).
  Proof.
    apply pr_retrieve. intros [| |[[cfg|]|e]]; try (by apply pr_ret, rs_eq). cbn. case_decide; [|by apply pr_ret, rs_eq].
    apply pr_submit. intros [[u|e]|]; try (by apply pr_ret, rs_eq). apply pr_verdict.
    intros [[]|]; try (by apply pr_ret, rs_eq). apply pr_draw. intros x x' Hx. apply pr_result; [by repeat split|].
    intros [| |[[]|e]]; try (by apply pr_ret, rs_eq). by apply pr_ret, rs_token.
  Qed.
  Lemma prel_validate m m' : vr_same m m' -> prel (validate_prog m) (validate_prog m').
  Proof. intros Hm. apply pr_verify; [done|]. intros [| |[b|e]]; by apply pr_ret, rs_eq. Qed.

  (** ** Steps *)
  Inductive call_same : call -> call -> Prop :=
  | cs_get id : call_same (CGetPow id) (CGetPow id)
  | cs_verify w ip : call_same (CVerifyPow w ip) (CVerifyPow w ip)
  | cs_validate m m' : vr_same m m' -> call_same (CValidate m) (CValidate m').
  Lemma prel_program salt x x' : call_same x x' -> prel (program salt x) (program salt x').
  Proof. destruct 1; [apply prel_get_pow|apply prel_verify_pow|by apply prel_validate]. Qed.
  Inductive env_same : env -> env -> Prop :=
  | es_eq x : (forall s, x <> XDraw s) -> env_same x x
  | es_draw s s' : same s s' -> env_same (XDraw s) (XDraw s').
  Inductive ev_same : shevent -> shevent -> Prop :=
  | evs_call i x x' : call_same x x' -> ev_same (XeCall i x) (XeCall i x')
  | evs_step n x x' : env_same x x' -> ev_same (XeStep n x) (XeStep n x')
  | evs_return n : ev_same (XeReturn n) (XeReturn n)
  | evs_cancel n : ev_same (XeCancel n) (XeCancel n)
  | evs_other x x' f : tk_same x x' -> ev_same (XeOther x f) (XeOther x' f)
  | evs_add m m' f : ev_same (XeOther (TkAdd m) f) (XeOther (TkAdd m') f)
  | evs_late j : ev_same (XeLate j) (XeLate j)
  | evs_tick t : ev_same (XeTick t) (XeTick t).

  Lemma vr_seen m m' : vr_same m m' ->
    VerifyCaptchaResult (hidden c (vr_token m)) (vr_key m) = VerifyCaptchaResult (hidden d (vr_token m')) (vr_key m').
  Proof. intros (H & ->). by rewrite (same_hidden _ _ H). Qed.
  Lemma cr_seen m m' : cr_same m m' ->
    CacheResult (hidden c (cr_token m)) (cr_key m) (cr_duration m) = CacheResult (hidden d (cr_token m')) (cr_key m') (cr_duration m').
  Proof. intros (H & -> & ->). by rewrite (same_hidden _ _ H). Qed.
  Lemma tk_seen x x' : tk_same x x' -> rseen_other c x = rseen_other d x'.
  Proof. destruct 1 as [m m' H|m m' H|m m' H]; cbn [rseen_other]; f_equal; by (apply vr_seen || apply cr_seen). Qed.
  Lemma ret_seen r r' : ret_same r r' -> rseen_ret c r = rseen_ret d r'.
  Proof.
    destruct 1 as [r H1 H2|x x' f s H|x x' f H]; cbn [rseen_ret pc_string pc_difficulty_factor pc_salt].
    - destruct r as [[[x|]|]|[[x f]|]|r|]; try done; exfalso; [by apply (H1 x)|by apply (H2 (x, f))].
    - by rewrite (same_hidden _ _ H).
    - by rewrite (same_hidden _ _ H).
  Qed.

  Definition responses (x y : option (server * prog * pev * fate)) : Prop :=
    match x, y with
    | Some (s, p, e, f), Some (s', p', e', f') =>
        srel s s' /\ prel p p' /\ rseen_req c e = rseen_req d e' /\ f = f' /\
        match e, e' with
        | PeCacheResult m _, PeCacheResult m' _ => cr_same m m'
        | PeCacheResult _ _, _ | _, PeCacheResult _ _ => False
        | _, _ => True
        end
    | None, None => True
    | _, _ => False
    end.
  Lemma respond_same l now s s' p p' x x' : srel s s' -> prel p p' -> env_same x x' ->
    responses (respond l now s p x) (respond l now s' p' x').
  Proof.
    intros Hs Hp Hx.
    destruct Hp as [r r' Hr|id k k' Hk|k k' Hk|m m' k k' Hm Hk|m k k' Hk|ip q k k' Hk|q k k' Hk|m m' k k' Hm Hk|m m' k k' Hm Hk];
      destruct Hx as [x Hx|y y' Hy]; try (destruct x as [a|y|r0|f|cl f|a|b]; try (by destruct (Hx y)));
      cbn [respond responses]; try done.
    - split; [done|]. split; [by apply Hk|]. cbn [rseen_req]. by rewrite (same_hidden _ _ Hy).
    - destruct m as [s1 f1 d1 k1], m' as [s2 f2 d2 k2]. destruct Hm as (H1 & H2 & H3 & H4). cbn in H1, H2, H3, H4. subst f2 d2 k2.
      split; [done|]. split; [by apply Hk|]. cbn [rseen_req cp_string cp_difficulty_factor cp_duration cp_key].
      rewrite (same_hidden _ _ H1). done.
    - split; [done|]. split; [by apply Hk|]. destruct m as [s1 f1 d1 k1], m' as [s2 f2 d2 k2].
      destruct Hm as (H1 & H2 & H3 & H4). cbn in H1, H2, H3, H4. subst f2 d2 k2.
      cbn [rseen_req cp_string cp_difficulty_factor cp_duration cp_key]. by rewrite (same_hidden _ _ H1).
    - destruct (verdict_ok l q b); [|done]. split; [done|]. split; [by apply Hk|]. done.
    - destruct (token_step_same s s' now _ _ f (tks_add _ _ Hm) Hs) as [H1 H2].
      destruct (token_step s _) as [s1 o1], (token_step s' _) as [s2 o2]. cbn [fst snd] in H1, H2. subst o2.
      split; [done|]. split; [by apply Hk|]. cbn [rseen_req]. by rewrite (cr_seen _ _ Hm).
    - destruct (token_step_same s s' now _ _ f (tks_add _ _ Hm) Hs) as [H1 H2].
      destruct (token_step s _) as [s1 o1], (token_step s' _) as [s2 o2]. cbn [fst snd] in H1, H2.
      split; [done|]. split; [by apply Hk|]. cbn [rseen_req]. by rewrite (cr_seen _ _ Hm).
    - destruct (token_step_same s s' now _ _ f (tks_get _ _ Hm) Hs) as [H1 H2].
      destruct (token_step s _) as [s1 o1], (token_step s' _) as [s2 o2]. cbn [fst snd] in H1, H2. subst o2.
      split; [done|]. split; [by apply Hk|]. cbn [rseen_req]. by rewrite (vr_seen _ _ Hm).
    - destruct (token_step_same s s' now _ _ f (tks_get _ _ Hm) Hs) as [H1 H2].
      destruct (token_step s _) as [s1 o1], (token_step s' _) as [s2 o2]. cbn [fst snd] in H1, H2.
      split; [done|]. split; [by apply Hk|]. cbn [rseen_req]. by rewrite (vr_seen _ _ Hm).
  Qed.

  Record shrel (s s' : shared) : Prop := ShRel {
    shr_now : sh_now s = sh_now s';
    shr_server : srel (sh_server s) (sh_server s');
    shr_calls : forall n, option_Forall2 (fun x x' : nat * prog => x.1 = x'.1 /\ prel x.2 x'.2) (sh_calls s !! n) (sh_calls s' !! n);
    shr_next : sh_next s = sh_next s';
    shr_late : Forall2 (fun x x' : nat * cache_result => x.1 = x'.1 /\ cr_same x.2 x'.2) (sh_late s) (sh_late s') }.
  Lemma shrel_init now : shrel (sh_init now) (sh_init now).
  Proof. split; cbn; try done. intros n. rewrite lookup_empty. constructor. Qed.

  Definition steps (x y : option (shared * list shout)) : Prop :=
    match x, y with
    | Some (s, o), Some (s', o') => shrel s s' /\ map (rseen1 c) o = map (rseen1 d) o'
    | None, None => True
    | _, _ => False
    end.
  Lemma calls_insert (m m' : gmap nat (nat * prog)) n i p p' : prel p p' ->
    (forall k, option_Forall2 (fun x x' : nat * prog => x.1 = x'.1 /\ prel x.2 x'.2) (m !! k) (m' !! k)) ->
    forall k, option_Forall2 (fun x x' : nat * prog => x.1 = x'.1 /\ prel x.2 x'.2) (<[n := (i, p)]> m !! k) (<[n := (i, p')]> m' !! k).
  Proof.
    intros Hp Hm k. destruct (decide (n = k)) as [->|Hn]; [rewrite !lookup_insert; by constructor|].
    rewrite !lookup_insert_ne by done. apply Hm.
  Qed.
  Lemma calls_delete (m m' : gmap nat (nat * prog)) n :
    (forall k, option_Forall2 (fun x x' : nat * prog => x.1 = x'.1 /\ prel x.2 x'.2) (m !! k) (m' !! k)) ->
    forall k, option_Forall2 (fun x x' : nat * prog => x.1 = x'.1 /\ prel x.2 x'.2) (delete n m !! k) (delete n m' !! k).
  Proof.
    intros Hm k. destruct (decide (n = k)) as [->|Hn]; [rewrite !lookup_delete; by constructor|].
    rewrite !lookup_delete_ne by done. apply Hm.
  Qed.
  Lemma step_same ls s s' e e' : shrel s s' -> ev_same e e' -> steps (sh_step ls s e) (sh_step ls s' e').
  Proof.
    intros [En Hs Hc' Ex Hl] He.
    destruct He as [i x x' Hx|n x x' Hx|n|n|x x' f Hx|m m' f|j|t]; cbn [sh_step].
    - unfold steps. split.
      + rewrite Ex, En. split; cbn; try done. apply calls_insert; [by apply prel_program|done].
      + rewrite Ex. cbn. f_equal. f_equal. destruct Hx as [| |m m' Hm]; try done. cbn. by rewrite (vr_seen _ _ Hm).
    - specialize (Hc' n) as Hn. destruct Hn as [[i p] [i' p'] [Hi Hp]|]; [|done]. cbn in Hi, Hp. subst i'.
      pose proof (respond_same (ls i) (sh_now s) _ _ p p' x x' Hs Hp Hx) as Hr. rewrite <- En.
      destruct (respond _ _ _ p x) as [[[[s1 p1] e1] f1]|], (respond _ _ _ p' x') as [[[[s2 p2] e2] f2]|]; try done.
      destruct Hr as (H1 & H2 & H3 & <- & H4). split.
      + split; cbn; try done; [by apply calls_insert|]. apply Forall2_app; [done|].
        destruct e1, e2; try done; cbn [given_up]; destruct f1;
          first [apply List.Forall2_nil | apply List.Forall2_cons; [done|apply List.Forall2_nil]].
      + cbn. by rewrite H3.
    - specialize (Hc' n) as Hn. destruct Hn as [[i p] [i' p'] [Hi Hp]|]; [|done]. cbn in Hi, Hp. subst i'.
      destruct Hp as [r r' Hr| | | | | | | |]; try done. split.
      + split; cbn; try done. by apply calls_delete.
      + cbn. by rewrite (ret_seen _ _ Hr).
    - specialize (Hc' n) as Hn. destruct Hn as [[i p] [i' p'] [Hi Hp]|]; [|done]. split; [|done].
      split; cbn; try done. by apply calls_delete.
    - pose proof (token_step_same (sh_server s) (sh_server s') (sh_now s) x x' f Hx Hs) as [H1 H2]. rewrite <- En.
      pose proof (tk_seen _ _ Hx) as Hsee.
      destruct Hx as [m m' Hm|m m' Hm|m m' Hm]; [done| |];
        (destruct (token_step (sh_server s) _) as [s1 o1], (token_step (sh_server s') _) as [s2 o2]; cbn [fst snd] in H1, H2;
         split; [split; cbn; done|cbn [map rseen1]; by rewrite Hsee]).
    - done.
    - pose proof (Forall2_length _ _ _ Hl) as Hlen.
      destruct (sh_late s !! j) as [[n m]|] eqn:Ej.
      + destruct (Forall2_lookup_l _ _ _ _ _ Hl Ej) as ([n' m'] & Ej' & Hn & Hm). cbn in Hn, Hm. subst n'. rewrite Ej'.
        pose proof (token_step_same (sh_server s) (sh_server s') (sh_now s) _ _ AnswerLost (tks_add _ _ Hm) Hs) as [H1 H2]. rewrite <- En.
        destruct (token_step (sh_server s) _) as [s1 o1], (token_step (sh_server s') _) as [s2 o2]. cbn [fst snd] in H1.
        split; [split; cbn; try done; by apply Forall2_delete|]. cbn [map rseen1]. by rewrite (cr_seen _ _ Hm).
      + destruct (sh_late s' !! j) eqn:Ej'; [|done].
        apply lookup_ge_None in Ej. apply lookup_lt_Some in Ej'. lia.
    - split; [split; cbn; try done|done]. by rewrite En.
  Qed.

  (** ** The game *)
  Lemma made_same v : c ∉ rnamed v -> d ∉ rnamed v -> ev_same (rmade c v) (rmade d v).
  Proof.
    intros H1 H2.
    assert (forall x, rnamed v = [last_part x] -> same x x) as Hn.
    { intros x E. rewrite E in H1, H2. apply same_named; set_solver. }
    destruct v as [e|n|i key|keep key f]; cbn [rmade].
    - destruct e as [i [id|w ip|m]|n x|n|n|[m|m|m] f|j|t]; try (constructor; constructor; fail).
      + constructor. constructor. split; [|done]. by apply Hn.
      + constructor. destruct x; try (by constructor). apply es_draw. by apply Hn.
      + constructor. constructor. split; [|done]. by apply Hn.
      + constructor. constructor. split; [|done]. by apply Hn.
    - constructor. apply es_draw, same_secret.
    - constructor. constructor. split; [apply same_secret|done].
    - constructor. destruct keep; constructor; (split; [apply same_secret|done]).
  Qed.
  Lemma rguesses_snoc log x : rguesses (log ++ [x]) = rguesses log ++ rnamed x.1.
  Proof. unfold rguesses. rewrite map_app, concat_app. cbn. by rewrite app_nil_r. Qed.
  Lemma game_same ls now A k :
    let g := rgame ls now A c k in let g' := rgame ls now A d k in
    c ∉ rguesses g.2 -> d ∉ rguesses g.2 -> shrel g.1 g'.1 /\ g'.2 = g.2.
  Proof.
    induction k as [|k IH]; cbn [rgame]; [split; [apply shrel_init|done]|]. cbv zeta in *.
    destruct (rgame ls now A c k) as [s log]. destruct (rgame ls now A d k) as [s' log']. cbn [fst snd] in IH.
    intros H1 H2.
    assert (c ∉ rguesses log /\ c ∉ rnamed (A log) /\ d ∉ rguesses log /\ d ∉ rnamed (A log)) as (Hc1 & Hc2 & Hd1 & Hd2).
    { destruct (sh_step ls s (rmade c (A log))) as [[]|]; cbn [snd] in H1, H2; rewrite rguesses_snoc in H1, H2; cbn [fst] in H1, H2;
        rewrite elem_of_app in H1, H2; tauto. }
    destruct (IH Hc1 Hd1) as [Hs ->].
    pose proof (step_same ls s s' _ _ Hs (made_same (A log) Hc2 Hd2)) as Hst.
    destruct (sh_step ls s (rmade c (A log))) as [[s1 o1]|], (sh_step ls s' (rmade d (A log))) as [[s2 o2]|]; try done.
    destruct Hst as [H3 H4]. cbn [fst snd]. split; [done|]. by rewrite H4.
  Qed.
End secrets.

(** ** A string that nobody names *)
Fixpoint many (n : nat) : string := match n with O => EmptyString | S n => String "a" (many n) end.
Lemma many_plain n : no_colon (many n).
Proof. induction n as [|n IH]; [intros []%elem_of_nil|]. unfold no_colon in *. cbn. rewrite elem_of_cons. intros [H|H]; [done|tauto]. Qed.
Lemma many_length n : String.length (many n) = n.
Proof. induction n as [|n IH]; [done|]. cbn. by rewrite IH. Qed.
Lemma fresh_plain (l : list string) : exists x, no_colon x /\ x ∉ l.
Proof.
  exists (many (S (list_max (map String.length l)))). split; [apply many_plain|]. intros H.
  assert (String.length (many (S (list_max (map String.length l)))) <= list_max (map String.length l))%nat as Hl.
  { apply elem_of_list_In in H. apply (in_map String.length) in H.
    pose proof (proj1 (list_max_le (map String.length l) _) (le_n _)) as Hm. rewrite List.Forall_forall in Hm. by apply Hm. }
  rewrite many_length in Hl. lia.
Qed.
Lemma rgame_length ls now A c k : length (rgame ls now A c k).2 = k.
Proof.
  induction k as [|k IH]; [done|]. cbn [rgame]. destruct (rgame ls now A c k) as [s log]. cbn [snd] in IH.
  destruct (sh_step ls s _) as [[]|]; cbn [snd]; rewrite app_length, IH; cbn; lia.
Qed.
Lemma common_rgame ls now A k : exists log, length log = k /\
  forall c, no_colon c -> c ∉ rguesses log -> (rgame ls now A c k).2 = log.
Proof.
  induction k as [|k (log & Hlen & IH)]; [by exists []|].
  destruct (fresh_plain (rguesses log ++ rnamed (A log))) as (c & Hc & Hf). rewrite not_elem_of_app in Hf. destruct Hf as [Hf1 Hf2].
  exists (rgame ls now A c (S k)).2. split; [apply rgame_length|]. intros d Hd Hg.
  assert (d ∉ rguesses log /\ d ∉ rnamed (A log)) as [Hd1 Hd2].
  { cbn [rgame] in Hg. pose proof (IH c Hc Hf1) as E. destruct (rgame ls now A c k) as [s log1]. cbn [snd] in E. subst log1.
    destruct (sh_step ls s _) as [[]|]; cbn [snd] in Hg; rewrite rguesses_snoc in Hg; cbn [fst] in Hg; by apply not_elem_of_app in Hg. }
  apply (game_same c d Hc Hd ls now A (S k)); [|done].
  cbn [rgame]. pose proof (IH c Hc Hf1) as E. destruct (rgame ls now A c k) as [s log1]. cbn [snd] in E. subst log1.
  destruct (sh_step ls s _) as [[]|]; cbn [snd]; rewrite rguesses_snoc; cbn [fst]; by apply not_elem_of_app.
Qed.
