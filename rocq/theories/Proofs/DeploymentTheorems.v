(** Proofs of the theorems of Properties/DeploymentProperties.v. *)
From Coq Require Import ZifyBool ZifyN ZifyNat Lia.
From Verif Require Import Model.Base Model.MCaptcha Model.HashCache Model.Pow Model.System Model.Json Model.Serde Model.Redis
  Model.RedisActor Model.RedisTokens Model.SystemProgram Model.SystemShared Model.RedisSystem Model.Deployment
  Spec.RedisSpec Spec.ProgramSpec Spec.SharedSpec Spec.DeploymentSpec
  Proofs.RedisProofs Proofs.SystemHistory Proofs.ProgramProofs Proofs.SharedProofs Proofs.DeploymentProofs Proofs.SharedTheorems.

Lemma c100_deployment : forall k ls now es d tr,
  dp_run k ls (dp_init now) es = Some (d, tr) ->
  exists es' s' tr' name, sh_run ls (sh_init now) es' = Some (s', tr') /\
    (** calls correspond one to one, on the same Systems, *)
    (forall g g', (g < sh_next s')%nat -> (g' < sh_next s')%nat -> name g = name g' -> g = g') /\
    (forall g i c, XoCall g i c ∈ tr' -> (g < sh_next s')%nat /\ (name g).1 = i) /\
    (** and what can be observed is the same, in the same order. *)
    d_obs tr = rename name <$> x_obs tr'.
Proof.
  intros k ls now es d tr Hr. destruct (run_sim k ls now es d tr Hr) as [_ Hs].
  destruct (Hs (fun _ => true)) as (es' & S & tr' & names & H1 & _ & [_ _ [Hinj Hdom] _ _] & H3 & H4).
  exists es', S, tr', (fun g => default (0, 0)%nat (names !! g)). split; [done|]. split; [|split; [|by apply named_rename]].
  - intros g g' Hg Hg'. apply Hdom in Hg as [a Ha], Hg' as [a' Ha']. rewrite Ha, Ha'. cbn. intros ->. by apply (Hinj g g' a').
  - intros g i c Hc. destruct (H4 _ _ _ Hc) as [n Hn]. rewrite Hn. split; [|done]. apply Hdom. by eexists.
Qed.

Lemma x_obs_short o : x_ob o = [] \/ exists y, x_ob o = [y].
Proof.
  destruct o as [n i c|n t e f|n r|n|t c f|n t m]; cbn; try (by left); try (right; by eexists).
  - destruct e; try (by left); [right; by eexists|..]; destruct f; first [by left|right; by eexists].
  - destruct f; first [by left|right; by eexists].
Qed.

Lemma x_obs_split tr os1 y os2 : x_obs tr = os1 ++ y :: os2 ->
  exists tr1 o tr2, tr = tr1 ++ o :: tr2 /\ x_ob o = [y] /\ x_obs tr1 = os1 /\ x_obs tr2 = os2.
Proof.
  revert os1. induction tr as [|o tr IH]; intros os1 H; [by destruct os1|].
  change (x_obs (o :: tr)) with (x_ob o ++ x_obs tr) in H. destruct (x_obs_short o) as [Ho|[z Ho]]; rewrite Ho in H; cbn [app] in H.
  - destruct (IH _ H) as (tr1 & o' & tr2 & -> & H1 & H2 & H3). exists (o :: tr1), o', tr2. split; [done|]. split; [done|].
    split; [|done]. change (x_obs (o :: tr1)) with (x_ob o ++ x_obs tr1). by rewrite Ho, H2.
  - destruct os1 as [|z' os1]; injection H as -> H.
    + by exists [], o, tr.
    + destruct (IH _ H) as (tr1 & o' & tr2 & -> & H1 & H2 & H3). exists (o :: tr1), o', tr2. split; [done|]. split; [done|].
      split; [|done]. change (x_obs (o :: tr1)) with (x_ob o ++ x_obs tr1). by rewrite Ho, H2.
Qed.

Lemma x_obs_cons o tr : x_obs (o :: tr) = x_ob o ++ x_obs tr.
Proof. done. Qed.

Lemma x_obs_elem tr o y : o ∈ tr -> y ∈ x_ob o -> y ∈ x_obs tr.
Proof. intros H1 H2. unfold x_obs. apply elem_of_list_bind. by exists o. Qed.

Lemma x_obs_in tr y : y ∈ x_obs tr -> exists o, o ∈ tr /\ x_ob o = [y].
Proof.
  unfold x_obs. rewrite elem_of_list_bind. intros (o & H1 & H2). exists o. split; [done|].
  destruct (x_obs_short o) as [Ho|[z Ho]]; rewrite Ho in H1; [by apply elem_of_nil in H1|]. by apply elem_of_list_singleton in H1 as ->.
Qed.

Lemma ob_call o g c : x_ob o = [BCall g c] -> exists i, o = XoCall g i c.
Proof. destruct o as [n i c'|n t e f|n r|n|t c' f|n t m]; cbn; intros H; try done.
  - injection H as <- <-. by exists i.
  - destruct e; try done; by destruct f.
  - by destruct f.
Qed.

Lemma ob_ret o g r : x_ob o = [BRet g r] -> o = XoRet g r.
Proof. destruct o as [n i c'|n t e f|n r'|n|t c' f|n t m]; cbn; intros H; try done.
  - destruct e; try done; by destruct f.
  - by injection H as <- <-.
  - by destruct f.
Qed.

Lemma ob_draw o g s : x_ob o = [BDraw g s] -> exists t f, o = XoDid g t (PeDraw s) f.
Proof. destruct o as [n i c'|n t e f|n r'|n|t c' f|n t m]; cbn; intros H; try done.
  - destruct e; try done; [injection H as <- <-; by exists t, f|by destruct f..].
  - by destruct f.
Qed.

(** An executed command in the shared model. *)
Lemma ob_exec o t cmd : x_ob o = [BExec t cmd] -> exists c f, token_of o = Some (TokenEvent t c f) /\ f <> NotSent /\ cmd = rc_cmd (token_cmd c).
Proof.
  destruct o as [n i c'|n t' e f|n r'|n|t' c' f|n t' m]; cbn; intros H; try done.
  - destruct e; try done; destruct f; try done; injection H as <- <-; by eexists _, _.
  - destruct f; try done; injection H as <- <-; by eexists _, _.
  - injection H as <- <-. by eexists _, AnswerLost.
Qed.

Lemma rename_call {A B} (f : A -> B) o b c : rename f o = BCall b c -> exists a, o = BCall a c /\ b = f a.
Proof. destruct o; try done. intros [= <- <-]. by eexists. Qed.

Lemma rename_ret {A B} (f : A -> B) o b r : rename f o = BRet b r -> exists a, o = BRet a r /\ b = f a.
Proof. destruct o; try done. intros [= <- <-]. by eexists. Qed.

Lemma rename_draw {A B} (f : A -> B) o b r : rename f o = BDraw b r -> exists a, o = BDraw a r /\ b = f a.
Proof. destruct o; try done. intros [= <- <-]. by eexists. Qed.

Lemma rename_exec {A B} (f : A -> B) o t c : rename f o = BExec t c -> o = BExec t c.
Proof. destruct o; try done. intros [= <- <-]. done. Qed.

Lemma rename_split {A B} (f : A -> B) xs ys1 y ys2 : rename f <$> xs = ys1 ++ y :: ys2 ->
  exists xs1 x xs2, xs = xs1 ++ x :: xs2 /\ ys1 = rename f <$> xs1 /\ y = rename f x /\ ys2 = rename f <$> xs2.
Proof.
  intros H. apply fmap_app_inv in H as (xs1 & xs' & -> & H & ->). symmetry in H. apply fmap_cons_inv in H as (x & xs2 & -> & -> & ->).
  by exists xs1, x, xs2.
Qed.

Lemma plain_back {A B} (f : A -> B) xs : plain_works (rename f <$> xs) -> plain_works xs.
Proof. intros H a w ip Hin. apply (H (f a) w ip). apply elem_of_list_fmap. by exists (BCall a (CVerifyPow w ip)). Qed.

Lemma plain_sites_of tr : plain_works (x_obs tr) -> plain_sites tr.
Proof. intros H n i w ip Hin. apply (H n w ip). apply (x_obs_elem _ _ _ Hin). by left. Qed.

Lemma fresh_back {A B} (f : A -> B) xs : fresh_draws (rename f <$> xs) -> fresh_draws xs.
Proof.
  intros H os1 a s os2 b os3 ->. apply (H (rename f <$> os1) (f a) s (rename f <$> os2) (f b) (rename f <$> os3)).
  by rewrite fmap_app, fmap_cons, fmap_app, fmap_cons.
Qed.

Lemma distinct_of tr : fresh_draws (x_obs tr) -> draws_distinct tr.
Proof.
  intros H tr1 n1 t1 s f1 tr2 n2 t2 f2 tr3 ->. apply (H (x_obs tr1) n1 s (x_obs tr2) n2 (x_obs tr3)).
  rewrite x_obs_app. change (x_obs (?o :: ?r)) with (x_ob o ++ x_obs r). by rewrite x_obs_app.
Qed.

Lemma c101_once : forall k ls now es d tr a b m,
  dp_run k ls (dp_init now) es = Some (d, tr) ->
  plain_works (d_obs tr) -> fresh_draws (d_obs tr) -> no_colon (vr_key m) ->
  checked (d_obs tr) a m true -> checked (d_obs tr) b m true -> a = b.
Proof.
  intros k ls now es d tr a b m Hr Hp Hf Hk Ha Hb.
  destruct (c100_deployment _ _ _ _ _ _ Hr) as (es' & S & tr' & name & Hs & Hinj & Hsys & Ho). rewrite Ho in *.
  apply plain_back, plain_sites_of in Hp. apply fresh_back, distinct_of in Hf.
  assert (Hacc : forall a, checked (rename name <$> x_obs tr') a m true ->
    exists g, a = name g /\ g ∈ accepted (token_key (vr_key m) (vr_token m)) tr').
  { intros a0 [H1 H2].
    apply elem_of_list_fmap in H1 as (o1 & E1 & H1). symmetry in E1. apply rename_call in E1 as (g1 & -> & ->).
    apply x_obs_in in H1 as (x1 & H1 & E1). apply ob_call in E1 as [i1 ->].
    apply elem_of_list_fmap in H2 as (o2 & E2 & H2). symmetry in E2. apply rename_ret in E2 as (g2 & -> & Hname).
    apply x_obs_in in H2 as (x2 & H2 & E2). apply ob_ret in E2 as ->.
    destruct (c82_check_behind_pass _ _ _ _ _ _ _ Hs H2) as (i & m' & t & f & Hc & Hd).
    assert (g1 = g2) as -> by (apply Hinj; [by destruct (Hsys _ _ _ H1)|by destruct (Hsys _ _ _ Hc)|done]).
    destruct (call_once _ _ _ _ _ _ _ _ _ _ Hs H1 Hc) as [_ [= <-]].
    exists g2. split; [done|]. apply elem_of_list_omap. eexists. split; [exact Hd|]. cbn. by rewrite decide_True. }
  destruct (Hacc a Ha) as (g & -> & Hg). destruct (Hacc b Hb) as (g' & -> & Hg'). f_equal.
  pose proof (c83_once _ _ _ _ _ (vr_key m) (vr_token m) Hs Hp Hf Hk) as Hlen.
  destruct (accepted _ tr') as [|x [|y l]]; [by apply elem_of_nil in Hg| |cbn in Hlen; lia].
  apply elem_of_list_singleton in Hg, Hg'. congruence.
Qed.

Lemma c101_earned : forall k ls now es d tr a m os1 os2,
  dp_run k ls (dp_init now) es = Some (d, tr) ->
  plain_works (d_obs tr) -> no_colon (vr_key m) ->
  d_obs tr = os1 ++ BRet a (RValidate (Ok true)) :: os2 -> BCall a (CValidate m) ∈ d_obs tr ->
  let key := token_key (vr_key m) (vr_token m) in
  exists h1 t' secs h2 t h3 j n w ip cfg,
    os1 = h1 ++ BExec t' ["SET"; key; vr_key m; "EX"; secs]%string :: h2 ++ BExec t ["DEL"; key]%string :: h3 /\
    secs = print_num (cc_duration cfg) /\ t <= t' + cc_duration cfg * 1000 /\
    (forall t0, BExec t0 ["DEL"; key]%string ∉ h2) /\
    BCall (j, n) (CVerifyPow w ip) ∈ h1 /\ BDraw (j, n) (vr_token m) ∈ h1 /\ BCall a (CValidate m) ∈ h1 ++ h2 /\
    w_key w = vr_key m /\ cc_key cfg = vr_key m /\ passes (ls j) (checked_work w cfg).
Proof.
  intros k ls now es d tr a m os1 os2 Hr Hp Hk E Hcall key.
  destruct (c100_deployment _ _ _ _ _ _ Hr) as (es' & S & tr' & name & Hs & Hinj & Hsys & Ho). rewrite Ho in *.
  apply plain_back, plain_sites_of in Hp.
  apply elem_of_list_fmap in Hcall as (o1 & E1 & Hcall). symmetry in E1. apply rename_call in E1 as (g & -> & ->).
  apply x_obs_in in Hcall as (x1 & Hcall & E1). apply ob_call in E1 as [i ->].
  apply rename_split in E as (xs1 & x & xs2 & E & -> & Hx & ->). symmetry in Hx. apply rename_ret in Hx as (g' & -> & Hname).
  apply x_obs_split in E as (tr1 & o & tr2 & -> & Eo & <- & <-). apply ob_ret in Eo as ->.
  destruct (run_prefix _ _ _ _ _ (tr1 ++ [XoRet g' (RValidate (Ok true))]) tr2 Hs) as (es1 & s1 & Hs1); [by rewrite <- app_assoc|].
  destruct (c82_check_behind_pass _ _ _ _ _ g' true Hs1) as (i' & m' & t & f & Hc & Hd); [apply elem_of_app; right; by left|].
  assert (Hc' : XoCall g' i' (CValidate m') ∈ tr1 ++ XoRet g' (RValidate (Ok true)) :: tr2).
  { apply elem_of_app in Hc as [Hc|Hc]; [apply elem_of_app; by left|by apply elem_of_list_singleton in Hc]. }
  assert (g = g') as <- by (apply Hinj; [by destruct (Hsys _ _ _ Hcall)|by destruct (Hsys _ _ _ Hc')|done]).
  destruct (call_once _ _ _ _ _ _ _ _ _ _ Hs Hcall Hc') as [-> [= ->]].
  apply elem_of_app in Hd as [Hd|Hd]; [|by apply elem_of_list_singleton in Hd].
  apply elem_of_list_split in Hd as (ta & tb & ->). rewrite <- app_assoc in Hs, Hp, Hsys, Hcall. cbn [app] in Hs, Hp, Hsys, Hcall.
  destruct (c82_earned _ _ _ _ _ ta g t m f (tb ++ XoRet g (RValidate (Ok true)) :: tr2) Hs eq_refl Hp Hk) as
    (tra & o & n' & t' & cfg & trb & j & w & ip & -> & Hst & Hc1 & Hwk & Hck & Hret & Hpass & -> & Hle & Hno).
  rewrite <- app_assoc in Hs, Hsys, Hcall. cbn [app] in Hs, Hsys, Hcall.
  destruct (stored_by _ _ _ _ _ _ _ _ _ _ _ Hs eq_refl Hst) as (j' & w' & ip' & cfg' & tok & Hc2 & _ & Hcr & _ & _ & Hdraw).
  assert (Htok : tok = vr_token m) by (by injection Hcr). subst tok. clear Hcr.
  assert (Hexec : x_ob o = [BExec t' (rc_cmd (token_cmd (TkAdd (CacheResult (vr_token m) (vr_key m) (cc_duration cfg)))))]).
  { destruct o as [|n0 t0 [] f0| | | |n0 t0 m0]; try done; cbn in Hst.
    - case_decide; [done|]. injection Hst as -> -> ->. by destruct f0.
    - by injection Hst as -> -> ->. }
  apply requests_elem in Hdraw as (td & fd & Hdraw).
  assert (Hn' : (name n').1 = j) by (eapply (proj2 (Hsys n' j _ ltac:(apply elem_of_app; left; exact Hc1)))).
  set (up := fun tr => rename name <$> x_obs tr).
  exists (up tra), t', (print_num (cc_duration cfg)), (up trb), t, (up tb), j, (name n').2, w, ip, cfg.
  assert (Hpair : (j, (name n').2) = name n') by (rewrite <- Hn'; by destruct (name n')). rewrite Hpair.
  split.
  { unfold up. repeat (rewrite x_obs_app || rewrite x_obs_cons). rewrite Hexec. cbn [x_ob]. unfold exec_obs.
    repeat (rewrite fmap_app || rewrite <- app_assoc); reflexivity. }
  split; [done|]. split; [done|]. split.
  { intros t0 Hin. unfold up in Hin. apply elem_of_list_fmap in Hin as (y & Ey & Hin). symmetry in Ey. apply rename_exec in Ey as ->.
    apply x_obs_in in Hin as (o' & Hin & Eo). apply ob_exec in Eo as (c & f & Hc3 & Hf & Hcmd).
    assert (Hte : TokenEvent t0 c f ∈ tokens trb) by (apply elem_of_list_omap; by exists o').
    specialize (Hno _ Hte Hf). cbn in Hno. destruct c as [x|x|x]; cbn in Hcmd; [done| |]; injection Hcmd as Hkey; apply Hno; unfold token_key; by rewrite Hkey. }
  split; [|split; [|split]].
  - apply elem_of_list_fmap. exists (BCall n' (CVerifyPow w ip)). split; [done|]. apply (x_obs_elem _ _ _ Hc1). by left.
  - apply elem_of_list_fmap. exists (BDraw n' (vr_token m)). split; [done|]. apply (x_obs_elem _ _ _ Hdraw). by left.
  - destruct (did_at _ _ _ _ _ (tra ++ o :: trb)
      g t (PeVerify m (An (Ok true))) Answered (tb ++ XoRet g (RValidate (Ok true)) :: tr2) Hs) as (i2 & p & p' & sv & (c & Hc3 & _) & _).
    { by rewrite <- app_assoc. }
    assert (Hin : XoCall g i2 c ∈ tra ++ trb).
    { apply elem_of_app in Hc3 as [Hc3|Hc3]; [apply elem_of_app; by left|].
      apply elem_of_cons in Hc3 as [<-|Hc3]; [done|]. apply elem_of_app. by right. }
    destruct (call_once _ _ _ _ _ _ _ _ i2 c Hs Hcall) as [-> ->].
    { apply elem_of_app in Hc3 as [Hc3|Hc3]; [apply elem_of_app; by left|]. apply elem_of_cons in Hc3 as [<-|Hc3]; [done|].
      apply elem_of_app. right. right. apply elem_of_app. by left. }
    apply elem_of_app in Hin as [Hin|Hin]; apply elem_of_app; [left|right];
      (apply elem_of_list_fmap; exists (BCall g (CValidate m)); split; [done|]; apply (x_obs_elem _ _ _ Hin); by left).
  - done.
Qed.

Lemma c101_stored : forall k ls now es d tr a w ip tok level os1 os2,
  dp_run k ls (dp_init now) es = Some (d, tr) ->
  d_obs tr = os1 ++ BRet a (RVerifyPow (Ok (tok, level))) :: os2 -> BCall a (CVerifyPow w ip) ∈ d_obs tr ->
  exists h1 t secs h2 cfg,
    os1 = h1 ++ BExec t ["SET"; token_key (w_key w) tok; w_key w; "EX"; print_num secs]%string :: h2 /\
    storable t secs /\ BCall a (CVerifyPow w ip) ∈ h1 /\ BDraw a tok ∈ h1 /\
    secs = cc_duration cfg /\ level = cc_difficulty_factor cfg /\ cc_key cfg = w_key w /\ passes (ls a.1) (checked_work w cfg).
Proof.
  intros k ls now es d tr a w ip tok level os1 os2 Hr E Hcall.
  destruct (c100_deployment _ _ _ _ _ _ Hr) as (es' & S & tr' & name & Hs & Hinj & Hsys & Ho). rewrite Ho in *.
  apply elem_of_list_fmap in Hcall as (o1 & E1 & Hcall). symmetry in E1. apply rename_call in E1 as (g & -> & ->).
  apply x_obs_in in Hcall as (x1 & Hcall & E1). apply ob_call in E1 as [i ->].
  apply rename_split in E as (xs1 & x & xs2 & E & -> & Hx & ->). symmetry in Hx. apply rename_ret in Hx as (g' & -> & Hname).
  apply x_obs_split in E as (tr1 & o & tr2 & -> & Eo & <- & <-). apply ob_ret in Eo as ->.
  destruct (run_prefix _ _ _ _ _ (tr1 ++ [XoRet g' (RVerifyPow (Ok (tok, level)))]) tr2 Hs) as (es1 & s1 & Hs1); [by rewrite <- app_assoc|].
  destruct (ret_at _ _ _ _ _ g' (RVerifyPow (Ok (tok, level))) Hs1) as (i' & c & Hc & Hp); [apply elem_of_app; right; by left|].
  assert (Hc' : XoCall g' i' c ∈ tr1 ++ XoRet g' (RVerifyPow (Ok (tok, level))) :: tr2).
  { apply elem_of_app in Hc as [Hc|Hc]; [apply elem_of_app; by left|by apply elem_of_list_singleton in Hc]. }
  assert (g = g') as <- by (apply Hinj; [by destruct (Hsys _ _ _ Hcall)|by destruct (Hsys _ _ _ Hc')|done]).
  destruct (call_once _ _ _ _ _ _ _ _ _ _ Hs Hcall Hc') as [-> ->].
  apply verify_pow_ends in Hp as ([y|] & Hy & Hcon); [|done]. injection Hy as <-. cbn in Hcon.
  destruct Hcon as (cfg & Hreq & Hck & Hlevel). rewrite requests_of_app, app_nil_r in Hreq.
  assert (Hst : PeCacheResult (CacheResult tok (w_key w) (cc_duration cfg)) (An (Ok tt)) ∈ requests_of g tr1).
  { rewrite Hreq. do 4 right. by left. }
  apply requests_elem in Hst as (t & f & Hst). apply elem_of_list_split in Hst as (ta & tb & ->).
  rewrite <- app_assoc in Hs, Hsys, Hcall. cbn [app] in Hs, Hsys, Hcall.
  destruct (did_at _ _ _ _ _ _ _ _ _ _ _ Hs eq_refl) as (i2 & p & p' & sv & _ & Han).
  pose proof (an_store _ _ _ _ _ _ _ _ Han _ eq_refl) as Hok.
  assert (f <> NotSent /\ storable t (cc_duration cfg)) as [Hf Hstor].
  { destruct (decide (f = NotSent)) as [->|Hf]; [done|]. split; [done|].
    destruct (decide (storable t (cc_duration cfg))) as [H|H]; [done|]. by rewrite step_add_refused in Hok. }
  destruct (store_at _ _ _ _ _ _ _ _ _ _ _ _ Hs eq_refl) as (j' & w' & ip' & cfg' & tok' & Hc2 & Hck' & Hst & Hpass & Hreq').
  assert (Hc3 : XoCall g j' (CVerifyPow w' ip') ∈ ta ++ XoDid g t (PeCacheResult (CacheResult tok (w_key w) (cc_duration cfg)) (An (Ok tt))) f
     :: tb ++ XoRet g (RVerifyPow (Ok (tok, level))) :: tr2) by (apply elem_of_app; by left).
  destruct (call_once _ _ _ _ _ _ _ _ _ _ Hs Hcall Hc3) as [-> [= -> ->]].
  assert (tok' = tok) as -> by (by injection Hst).
  rewrite requests_of_app, Hreq' in Hreq. injection Hreq as Hcfg _ _. subst cfg'.
  assert (Hdraw : PeDraw tok ∈ requests_of g ta) by (rewrite Hreq'; do 3 right; by left).
  apply requests_elem in Hdraw as (td & fd & Hdraw).
  set (up := fun tr => rename name <$> x_obs tr).
  exists (up ta), t, (cc_duration cfg), (up tb), cfg. split.
  { unfold up. repeat (rewrite x_obs_app || rewrite x_obs_cons). cbn [x_ob]. unfold exec_obs.
    destruct f; [| |done]; repeat (rewrite fmap_app || rewrite <- app_assoc); reflexivity. }
  split; [done|]. split; [|split; [|split; [done|split; [done|split; [done|]]]]].
  - apply elem_of_list_fmap. exists (BCall g (CVerifyPow w ip)). split; [done|]. apply (x_obs_elem _ _ _ Hc2). by left.
  - apply elem_of_list_fmap. exists (BDraw g tok). split; [done|]. apply (x_obs_elem _ _ _ Hdraw). by left.
  - by destruct (Hsys _ _ _ Hcall) as [_ ->].
Qed.

Lemma c101_good : forall k ls now es d tr m a b t' secs t os1 os2 os3 os4,
  dp_run k ls (dp_init now) es = Some (d, tr) ->
  let key := token_key (vr_key m) (vr_token m) in
  d_obs tr = os1 ++ BExec t' ["SET"; key; vr_key m; "EX"; print_num secs]%string ::
    os2 ++ BExec t ["DEL"; key]%string :: os3 ++ BRet a (RValidate (Ok b)) :: os4 ->
  BCall a (CValidate m) ∈ d_obs tr ->
  storable t' secs -> t <= t' + secs * 1000 ->
  (** nothing else is done about it in between, *)
  (forall t0 cmd, BExec t0 cmd ∈ os2 -> cmd !! 1%nat <> Some key) ->
  (** and it is this command that the call waited for. *)
  (forall t0, BExec t0 ["DEL"; key]%string ∉ os1 ++ os3) ->
  b = true.
Proof.
  intros k ls now es d tr m a b t' secs t os1 os2 os3 os4 Hr key E Hcall Hstor Hle Hnone Hmine.
  destruct (c100_deployment _ _ _ _ _ _ Hr) as (es' & S & tr' & name & Hs & Hinj & Hsys & Ho). rewrite Ho in *.
  apply elem_of_list_fmap in Hcall as (o1 & E1 & Hcall). symmetry in E1. apply rename_call in E1 as (g & -> & ->).
  apply x_obs_in in Hcall as (x1 & Hcall & E1). apply ob_call in E1 as [i ->].
  apply rename_split in E as (xs1 & x & r1 & E & -> & Hx & E'). symmetry in Hx, E'. apply rename_exec in Hx as ->.
  apply rename_split in E' as (xs2 & x & r2 & -> & -> & Hx & E'). symmetry in Hx, E'. apply rename_exec in Hx as ->.
  apply rename_split in E' as (xs3 & x & r3 & -> & -> & Hx & ->). symmetry in Hx. apply rename_ret in Hx as (g' & -> & Hname).
  apply x_obs_split in E as (tr1 & o1 & tr2 & -> & Eo1 & <- & E).
  apply x_obs_split in E as (tr3 & o2 & tr4 & -> & Eo2 & <- & E).
  apply x_obs_split in E as (tr5 & o3 & tr6 & -> & Eo3 & <- & _). apply ob_ret in Eo3 as ->.
  set (pre := tr1 ++ o1 :: tr3 ++ o2 :: tr5).
  assert (Etr : tr1 ++ o1 :: tr3 ++ o2 :: tr5 ++ XoRet g' (RValidate (Ok b)) :: tr6 = pre ++ XoRet g' (RValidate (Ok b)) :: tr6).
  { unfold pre. by rewrite <- app_assoc; cbn [app]; rewrite <- app_assoc. }
  rewrite Etr in *.
  destruct (run_prefix _ _ _ _ _ (pre ++ [XoRet g' (RValidate (Ok b))]) tr6 Hs) as (es1 & s1 & Hs1); [by rewrite <- app_assoc|].
  destruct (c82_check_behind_pass _ _ _ _ _ g' b Hs1) as (i' & m' & tm & f & Hc & Hd); [apply elem_of_app; right; by left|].
  assert (Hc' : XoCall g' i' (CValidate m') ∈ pre ++ XoRet g' (RValidate (Ok b)) :: tr6).
  { apply elem_of_app in Hc as [Hc|Hc]; [apply elem_of_app; by left|by apply elem_of_list_singleton in Hc]. }
  assert (g = g') as <- by (apply Hinj; [by destruct (Hsys _ _ _ Hcall)|by destruct (Hsys _ _ _ Hc')|done]).
  destruct (call_once _ _ _ _ _ _ _ _ _ _ Hs Hcall Hc') as [-> [= ->]].
  apply elem_of_app in Hd as [Hd|Hd]; [|by apply elem_of_list_singleton in Hd].
  (* the call's command was executed and answered *)
  assert (Hf : f = Answered).
  { apply elem_of_list_split in Hd as (ta & tb & E). rewrite E, <- app_assoc in Hs.
    destruct (did_at _ _ _ _ _ _ _ _ _ _ _ Hs eq_refl) as (i2 & p & p' & sv & _ & Han).
    pose proof (an_true _ _ _ _ _ _ _ _ Han _ _ eq_refl) as Hb. by destruct f. }
  subst f.
  assert (Hob : forall h, XoDid g tm (PeVerify m (An (Ok b))) Answered ∈ h -> BExec tm ["DEL"; key]%string ∈ rename name <$> x_obs h).
  { intros h Hin. apply elem_of_list_fmap. exists (BExec tm ["DEL"; key]%string). split; [done|]. apply (x_obs_elem _ _ _ Hin). by left. }
  assert (Ho2 : o2 = XoDid g tm (PeVerify m (An (Ok b))) Answered).
  { unfold pre in Hd. apply elem_of_app in Hd as [Hd|Hd].
    { exfalso. apply (Hmine tm), elem_of_app. left. by apply Hob. }
    apply elem_of_cons in Hd as [<-|Hd]; [done|]. apply elem_of_app in Hd as [Hd|Hd].
    { exfalso. by apply (Hnone tm _ (Hob _ Hd)). }
    apply elem_of_cons in Hd as [<-|Hd]; [done|]. exfalso. apply (Hmine tm), elem_of_app. right. by apply Hob. }
  subst o2. injection Eo2 as ->.
  (* and the token was there *)
  apply ob_exec in Eo1 as (c & f & Ht & Hf & Hcmd). destruct c as [cr|x|x]; [|done..].
  assert (Hkey : key = token_key (cr_key cr) (cr_token cr)) by (by apply (f_equal (fun l : list string => l !! 1%nat)) in Hcmd; injection Hcmd as Hcmd; unfold key, token_key; rewrite Hcmd).
  assert (Hsecs : print_num secs = print_num (cr_duration cr)) by (by apply (f_equal (fun l : list string => l !! 4%nat)) in Hcmd; injection Hcmd).
  assert (cr_duration cr = secs) as Hsecs'.
  { pose proof (digits_print (cr_duration cr)) as H1. rewrite <- Hsecs, digits_print in H1. by injection H1. }
  rewrite <- Etr in Hs. rewrite app_comm_cons, app_assoc in Hs.
  destruct (did_at _ _ _ _ _ _ _ _ _ _ _ Hs eq_refl) as (i2 & p & p' & sv & _ & Han).
  pose proof (an_true _ _ _ _ _ _ _ _ Han _ _ eq_refl) as Hb.
  destruct (get_outcome (tokens (tr1 ++ o1 :: tr3)) t m) as (b' & Ho' & Hb'). unfold outcome_of in Ho'. rewrite Ho' in Hb.
  injection Hb as <-. apply Hb'.
  exists (tokens tr1), (TokenEvent t' (TkAdd cr) f), cr, (tokens tr3). split.
  { rewrite tokens_app. unfold tokens at 2. cbn [omap list_omap]. by rewrite Ht. }
  split; [done|]. split; [split; [done|]; cbn; by rewrite Hsecs'|]. split; [symmetry; exact Hkey|]. split; [cbn; by rewrite Hsecs'|].
  apply Forall_forall. intros [t0 c f0] Hin [Hf0 _] Habout. apply elem_of_list_omap in Hin as (o & Hin & Hto).
  apply (Hnone t0 (rc_cmd (token_cmd c))).
  - apply elem_of_list_fmap. exists (BExec t0 (rc_cmd (token_cmd c))). split; [done|]. apply (x_obs_elem _ _ _ Hin).
    cbn in Hf0. destruct o as [n0 i0 c0|n0 t1 e0 f1|n0 r0|n0|t1 c0 f1|n0 t1 m0]; cbn in Hto; try done.
    + destruct e0; try done; injection Hto as <- <- <-; destruct f1; try done; by left.
    + injection Hto as <- <- <-. destruct f1; try done; by left.
    + injection Hto as <- <- <-. by left.
  - cbn in Habout. unfold same_key in Habout. destruct c; cbn in *; by rewrite Habout.
Qed.

(** Three Systems: the challenge from the first, the work to the second, the token
    checked at the first. Somebody asks a third about another token and goes away;
    that command is executed later. Then the token is checked again. *)
Definition on (i : nat) (es : list rsevent) : list devent := DeSys i <$> es.
