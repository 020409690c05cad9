From Coq Require Import Ascii.
From Coq Require Import ZifyBool ZifyN ZifyNat Lia.
From Verif Require Import Model.Base Model.MCaptcha Model.Master Model.HashCache Model.Queue Model.Pow Model.System
  Model.Utils Spec.UtilsSpec Spec.GuessSpec Proofs.UtilsProofs.

(** * Renaming challenges and tokens *)
Section rename.
  Context (f : string -> string) (Hf : forall x, f (f x) = x).
  Local Instance f_inj : Inj (=) (=) f.
  Proof using Hf. intros x y H. by rewrite <- (Hf x), H, Hf. Qed.

  Definition rn_del (d : deletion) : deletion :=
    match d with DeletePoW x => DeletePoW (f x) | DeleteCaptchaResult x => DeleteCaptchaResult (f x) end.
  Local Instance rn_del_inj : Inj (=) (=) rn_del.
  Proof using Hf. intros [] [] H; inversion H as [E]; apply f_inj in E; by subst. Qed.
  Definition rn_timer (t : N * deletion) : N * deletion := (t.1, rn_del t.2).
  Local Instance rn_timer_inj : Inj (=) (=) rn_timer.
  Proof using Hf. intros [a d] [b e] H. inversion H as [[H1 H2]]. apply rn_del_inj in H2. by subst. Qed.
  Definition rn_hc (h : hashcache) : hashcache :=
    HashCache (kmap f (hc_difficulty_map h)) (kmap f (hc_result_map h)) (map rn_timer (hc_timers h)).
  Definition rn_cfg (c : pow_config) : pow_config := PoWConfig (f (pc_string c)) (pc_difficulty_factor c) (pc_salt c).
  Definition rn_vcr (m : verify_captcha_result) := VerifyCaptchaResult (f (vr_token m)) (vr_key m).
  Definition rn_client (c : client) : client :=
    match c with
    | GpCache id v cfg => GpCache id v (rn_cfg cfg)
    | GpDone cfg => GpDone (rn_cfg cfg)
    | VpStore w c j t => VpStore w c j (f t)
    | VpDone w c j t => VpDone w c j (f t)
    | VtStart m => VtStart (rn_vcr m)
    | c => c
    end.
  Definition rn_sys (s : ssys) : ssys :=
    SSys (sy_m s) (rn_hc (sy_c s)) (sy_q s) (sy_replies s) (sy_answers s) (sy_jobs s) (rn_client <$> sy_clients s)
      (sy_next s).
  Definition rn_event (e : sevent) : sevent :=
    match e with
    | SeCall (CValidate m) => SeCall (CValidate (rn_vcr m))
    | SeAct n rnd => SeAct n (f rnd)
    | SeExpire due d => SeExpire due (rn_del d)
    | e => e
    end.
  Definition rn_msg (m : cache_msg) : cache_msg :=
    match m with
    | HmCachePoW m => HmCachePoW (CachePoW (f (cp_string m)) (cp_difficulty_factor m) (cp_duration m) (cp_key m))
    | HmRetrivePoW m => HmRetrivePoW (rn_vcr m)
    | HmCacheResult m => HmCacheResult (CacheResult (f (cr_token m)) (cr_key m) (cr_duration m))
    | HmVerifyCaptchaResult m => HmVerifyCaptchaResult (rn_vcr m)
    | HmDelete d => HmDelete (rn_del d)
    end.
  Definition rn_ce (e : cache_event) : cache_event :=
    match e with HeMsg m => HeMsg (rn_msg m) | HeTick d => HeTick d | HeExpire due d => HeExpire due (rn_del d) end.
  Definition rn_out (o : sout) : sout :=
    match o with
    | SoCache n e r => SoCache n (rn_ce e) r
    | SoCall n (CValidate m) => SoCall n (CValidate (rn_vcr m))
    | SoRet n (RGetPow (Ok (Some c))) => SoRet n (RGetPow (Ok (Some (rn_cfg c))))
    | SoRet n (RVerifyPow (Ok (t, d))) => SoRet n (RVerifyPow (Ok (f t, d)))
    | o => o
    end.
  Definition rn_res (x : ssys * list sout) : ssys * list sout := (rn_sys x.1, map rn_out x.2).

  Lemma rn_delete h d : hc_delete (rn_hc h) (rn_del d) = rn_hc (hc_delete h d).
  Proof using Hf. destruct h as [a b c], d as [x|x]; cbn; unfold rn_hc; cbn; by rewrite kmap_delete by apply _. Qed.
  Lemma rn_handle now h m :
    hc_handle now (rn_hc h) (rn_msg m) = (rn_hc (hc_handle now h m).1, (hc_handle now h m).2).
  Proof using Hf.
    destruct h as [a b c], m as [m|m|m|m|d]; cbn.
    - unfold rn_hc; cbn. rewrite kmap_insert by apply _. by rewrite map_app.
    - unfold retrive_pow_config; cbn. rewrite lookup_kmap by apply _. rewrite <- kmap_delete by apply _.
      by destruct (a !! vr_token m).
    - unfold rn_hc; cbn. rewrite kmap_insert by apply _. by rewrite map_app.
    - unfold verify_result; cbn. rewrite lookup_kmap by apply _. rewrite <- kmap_delete by apply _.
      destruct (b !! vr_token m); [|done]. by case_decide.
    - by rewrite <- rn_delete.
  Qed.
  Lemma rn_remove_first x ts : remove_first (rn_timer x) (map rn_timer ts) = map rn_timer (remove_first x ts).
  Proof using Hf.
    induction ts as [|y ts IH]; [done|]. cbn. destruct (decide (x = y)) as [->|Hn].
    - by rewrite decide_True.
    - rewrite decide_False; [cbn; by rewrite IH|]. intros H. by apply rn_timer_inj in H.
  Qed.
  Lemma rn_expire now h due d : hc_expire now (rn_hc h) due (rn_del d) = rn_hc <$> hc_expire now h due d.
  Proof using Hf.
    destruct h as [a b c]. unfold hc_expire. cbn.
    assert (Hm : (due, rn_del d) ∈ map rn_timer c <-> (due, d) ∈ c).
    { change (due, rn_del d) with (rn_timer (due, d)). apply elem_of_list_fmap_inj, _. }
    destruct (decide ((due, d) ∈ c)) as [Hi|Hi].
    - rewrite decide_True by by apply Hm. destruct (due <=? now); [|done]. cbn. f_equal.
      change (due, rn_del d) with (rn_timer (due, d)). rewrite rn_remove_first. rewrite <- rn_delete. done.
    - rewrite decide_False; [done|]. intros H. by apply Hi, Hm.
  Qed.
  Lemma rn_lookup s n : sy_clients (rn_sys s) !! n = rn_client <$> sy_clients s !! n.
  Proof using. cbn. apply lookup_fmap. Qed.
  Lemma rn_job c : client_job (rn_client c) = client_job c.
  Proof using. by destruct c. Qed.
  Lemma rn_leave s n c : leave (rn_sys s) n (rn_client c) = rn_sys (leave s n c).
  Proof using. unfold leave, rn_sys. cbn. by rewrite rn_job, fmap_delete. Qed.
  Lemma rn_with_client s n c : with_client (rn_sys s) n (rn_client c) = rn_sys (with_client s n c).
  Proof using. unfold with_client, rn_sys. cbn. by rewrite fmap_insert. Qed.
  Lemma rn_with_c s h : with_c (rn_sys s) (rn_hc h) = rn_sys (with_c s h).
  Proof using. done. Qed.
  Lemma rn_cache_msg s n m :
    s_cache_msg (rn_sys s) n (rn_msg m) =
    (rn_sys (s_cache_msg s n m).1.1, (s_cache_msg s n m).1.2, map rn_out (s_cache_msg s n m).2).
  Proof using Hf.
    unfold s_cache_msg. change (s_now (rn_sys s)) with (s_now s). change (sy_c (rn_sys s)) with (rn_hc (sy_c s)).
    rewrite rn_handle. by destruct (hc_handle (s_now s) (sy_c s) m) as [h r].
  Qed.

  (** No work for a renamed challenge has been submitted. *)
  Definition settled (s : ssys) : Prop := forall n w ip, sy_clients s !! n = Some (VpStart w ip) -> f (w_string w) = w_string w.
  Definition unworked (e : sevent) : Prop :=
    match e with SeCall (CVerifyPow w _) => f (w_string w) = w_string w | _ => True end.

  Lemma rn_act p l s n c rnd : sy_clients s !! n = Some c -> settled s ->
    client_act p l (rn_sys s) n (rn_client c) (f rnd) = rn_res <$> client_act p l s n c rnd.
  Proof using Hf.
    intros Hc Hs. destruct c as [id|id k|id v cfg|cfg|w ip|w ip cfg|w cfg j|w cfg j|w cfg j t|w cfg j t|m|b];
      cbn [rn_client client_act].
    - cbn [sy_m rn_sys]. destruct (m_step p (sy_m s) _) as [[m os]|]; [|done]. cbn. unfold rn_res. cbn.
      by rewrite <- rn_with_client.
    - cbn [sy_replies rn_sys]. destruct (sy_replies s !! k) as [x|]; [|done].
      assert (Hl : forall r, s_return (rn_sys s) n (GpWait id k) (RGetPow r) =
                     Some (rn_sys (leave s n (GpWait id k)), [SoRet n (RGetPow r)])).
      { intros r. unfold s_return. by rewrite <- rn_leave. }
      destruct x as [[[v|]|]| | | | | ]; rewrite ?Hl; try done.
      cbn. unfold rn_res. cbn. by rewrite <- rn_with_client.
    - change (HmCachePoW (CachePoW (pc_string (rn_cfg cfg)) (avr_difficulty_factor v) (avr_duration v) id)) with
        (rn_msg (HmCachePoW (CachePoW (pc_string cfg) (avr_difficulty_factor v) (avr_duration v) id))).
      rewrite rn_cache_msg. destruct (s_cache_msg s n _) as [[s1 r] o]. cbn [fst snd].
      destruct r as [[u|e]| |]; try done; cbn; unfold rn_res; cbn.
      + by rewrite <- rn_with_client.
      + rewrite map_app. by rewrite <- rn_leave.
    - unfold s_return. cbn. unfold rn_res. cbn. by rewrite <- rn_leave.
    - pose proof (Hs _ _ _ Hc) as Hw.
      assert (Hm : HmRetrivePoW (VerifyCaptchaResult (w_string w) (w_key w)) =
        rn_msg (HmRetrivePoW (VerifyCaptchaResult (w_string w) (w_key w)))).
      { cbn. unfold rn_vcr. cbn. by rewrite Hw. }
      rewrite Hm at 1. clear Hm.
      rewrite rn_cache_msg. destruct (s_cache_msg s n _) as [[s1 r] o]. cbn [fst snd].
      destruct r as [|[[cfg|]|e]|]; try done; [case_decide| |]; cbn; unfold rn_res; cbn; rewrite ?map_app.
      + by rewrite <- rn_with_client.
      + by rewrite <- rn_leave.
      + by rewrite <- rn_leave.
      + by rewrite <- rn_leave.
    - cbn [rn_sys sy_q]. destruct (qs_mgr (sy_q s)); try (unfold s_return; cbn; unfold rn_res; cbn; by rewrite <- rn_leave).
      all: destruct (validate l _) as [sends returns]; destruct (q_step p (sy_q s) _) as [[q os]|]; [|done];
        cbn; unfold rn_res; cbn; by rewrite <- rn_with_client.
    - cbn [rn_sys sy_q sy_answers]. destruct (sy_answers s !! j) as [[u|e]|].
      + cbn. unfold rn_res. cbn. by rewrite <- rn_with_client.
      + unfold s_return. cbn. unfold rn_res. cbn. by rewrite <- rn_leave.
      + destruct (qs_mgr (sy_q s)); try done; unfold s_return; cbn; unfold rn_res; cbn; by rewrite <- rn_leave.
    - cbn [rn_sys sy_q sy_jobs]. destruct (sy_jobs s !! j) as [v|]; [|done]. destruct (vj_buf v) as [|[] rest].
      + destruct (job_live (sy_q s) j); [done|]. unfold s_return; cbn; unfold rn_res; cbn; by rewrite <- rn_leave.
      + cbn. unfold rn_res. cbn. by rewrite <- rn_with_client.
      + unfold s_return; cbn; unfold rn_res; cbn; by rewrite <- rn_leave.
    - change (HmCacheResult (cached_into_result cfg (f t))) with (rn_msg (HmCacheResult (cached_into_result cfg t))).
      rewrite rn_cache_msg. destruct (s_cache_msg s n _) as [[s1 r] o]. cbn [fst snd].
      destruct r as [[u|e]| |]; try done; cbn; unfold rn_res; cbn.
      + by rewrite <- rn_with_client.
      + rewrite map_app. by rewrite <- rn_leave.
    - unfold s_return. cbn. unfold rn_res. cbn. by rewrite <- rn_leave.
    - change (HmVerifyCaptchaResult (rn_vcr m)) with (rn_msg (HmVerifyCaptchaResult m)).
      rewrite rn_cache_msg. destruct (s_cache_msg s n _) as [[s1 r] o]. cbn [fst snd].
      destruct r as [| |b]; try done; cbn; unfold rn_res; cbn. by rewrite <- rn_with_client.
    - unfold s_return. cbn. unfold rn_res. cbn. by rewrite <- rn_leave.
  Qed.

  Lemma rn_queue p s e : s_queue p (rn_sys s) e = rn_res <$> s_queue p s e.
  Proof using. unfold s_queue. cbn. by destruct (q_step p (sy_q s) e) as [[q os]|]. Qed.

  Lemma rn_step p l s e : settled s -> unworked e -> s_step p l (rn_sys s) (rn_event e) = rn_res <$> s_step p l s e.
  Proof using Hf.
    intros Hs He. unfold s_step. change (sy_q (rn_sys s)) with (sy_q s).
    assert (E : match rn_event e with
    | SeCall c =>
        let n := sy_next s in
        Some (SSys (sy_m s) (rn_hc (sy_c s)) (sy_q s) (sy_replies s) (sy_answers s) (sy_jobs s)
                (<[n := client_start c]> (rn_client <$> sy_clients s)) (S n), [SoCall n c])
    | _ => None end = match e with SeCall c => rn_res <$> Some (SSys (sy_m s) (sy_c s) (sy_q s) (sy_replies s) (sy_answers s) (sy_jobs s)
                (<[sy_next s := client_start c]> (sy_clients s)) (S (sy_next s)), [SoCall (sy_next s) c]) | _ => None end).
    { destruct e as [[]| | | | | | | | |]; try done; cbn; unfold rn_res, rn_sys; cbn; by rewrite fmap_insert. }
    destruct (qs_mgr (sy_q s)); try done.
    all: destruct e as [c|n rnd|n|e| |r|r|r|due d|d]; cbn [rn_event].
    all: try (by destruct c; apply E).
    all: try (apply rn_queue).
    all: try (rewrite rn_lookup; destruct (sy_clients s !! n) as [c|] eqn:Ec; [|done]; cbn [fmap option_fmap option_map]).
    all: try (by apply rn_act).
    all: try (cbn; unfold rn_res; cbn; by rewrite <- rn_leave).
    all: cbn [rn_sys sy_m sy_jobs].
    all: try (destruct e; first [reflexivity|destruct (m_step p (sy_m s) _) as [[m0 os]|]; reflexivity]).
    all: try (destruct (m_step p (sy_m s) _) as [[m0 os]|]; reflexivity).
    all: try (change (s_now (rn_sys s)) with (s_now s); change (sy_c (rn_sys s)) with (rn_hc (sy_c s)); rewrite rn_expire;
      by destruct (hc_expire _ _ due d)).
    all: destruct (running_job (sy_q s) r) as [j|]; [|done]; destruct (sy_jobs s !! j) as [v|]; [|done];
      destruct (vj_todo v) as [|b rest]; try done; try apply rn_queue.
    all: destruct (negb (vj_open v)); [done|]; by destruct (_ <? _)%nat.
  Qed.
End rename.

(** * Exchanging two strings *)
Definition swap (d d' x : string) : string := if decide (x = d) then d' else if decide (x = d') then d else x.
Lemma swap_inv d d' x : swap d d' (swap d d' x) = x.
Proof. unfold swap. repeat case_decide; congruence. Qed.
Lemma swap_l d d' : swap d d' d = d'.
Proof. unfold swap. by rewrite decide_True. Qed.
Lemma swap_other d d' x : x <> d -> x <> d' -> swap d d' x = x.
Proof. intros. unfold swap. by rewrite !decide_False. Qed.

(** The strings a call holds. *)
Definition held (c : client) : list string :=
  match c with
  | GpCache _ _ cfg | GpDone cfg => [pc_string cfg]
  | VpStart w _ => [w_string w]
  | VpStore _ _ _ t | VpDone _ _ _ t => [t]
  | VtStart m => [vr_token m]
  | _ => []
  end.
Definition unheld (x : string) (s : ssys) : Prop := forall n c, sy_clients s !! n = Some c -> x ∉ held c.
Definition unasked (x : string) (s : ssys) : Prop := forall n w ip, sy_clients s !! n = Some (VpStart w ip) -> w_string w <> x.
Definition e_named (e : sevent) : list string := named (MvEvent e).
(** The strings an output tells. *)
Definition told (o : sout) : list string :=
  match o with
  | SoCall _ (CValidate m) => [vr_token m]
  | SoRet _ (RGetPow (Ok (Some c))) => [pc_string c]
  | SoRet _ (RVerifyPow (Ok (t, _))) => [t]
  | _ => []
  end.

Lemma unheld_insert x s n c : unheld x s -> x ∉ held c -> forall m c', <[n := c]> (sy_clients s) !! m = Some c' -> x ∉ held c'.
Proof. intros Hu Hc m c' [[_ <-]|[_ H]]%lookup_insert_Some; [done|]. by apply (Hu _ _ H). Qed.
Lemma unheld_delete x s n : unheld x s -> forall m c', delete n (sy_clients s) !! m = Some c' -> x ∉ held c'.
Proof. intros Hu m c' [_ H]%lookup_delete_Some. by apply (Hu _ _ H). Qed.

Lemma unheld_act p l s n c rnd s' o x : client_act p l s n c rnd = Some (s', o) -> sy_clients s !! n = Some c ->
  unheld x s -> x <> rnd -> unheld x s' /\ Forall (fun o => x ∉ told o) o.
Proof.
  intros E Hc Hu Hr. pose proof (Hu _ _ Hc) as Hh.
  assert (Hin : forall s1 c1, sy_clients s1 = sy_clients s -> x ∉ held c1 -> unheld x (with_client s1 n c1)).
  { intros s1 c1 H1 H2 m c'. cbn. rewrite H1. by apply unheld_insert. }
  assert (Hde : forall s1 c1, sy_clients s1 = sy_clients s -> unheld x (leave s1 n c1)).
  { intros s1 c1 H1 m c'. cbn. rewrite H1. by apply unheld_delete. }
  assert (Hcm : forall msg, exists h r, s_cache_msg s n msg = (with_c s h, r, [SoCache (Some n) (HeMsg msg) (Some r)])).
  { intros msg. unfold s_cache_msg. destruct (hc_handle _ _ msg) as [h r]. by exists h, r. }
  destruct c as [id|id k|id v cfg|cfg|w ip|w ip cfg|w cfg j|w cfg j|w cfg j t|w cfg j t|m|b]; cbn [client_act] in E.
  - destruct (m_step p (sy_m s) _) as [[m os]|]; [|done]. injection E as <- <-. split; [apply Hin; [done|]; cbn; set_solver|].
    repeat constructor. cbn. set_solver.
  - unfold s_return in E. destruct (sy_replies s !! k) as [[[[v|]|]| | | | | ]|]; try done; injection E as <- <-.
    all: split; [first [by apply Hde|apply Hin; [done|]; cbn; set_solver]|].
    all: repeat constructor; cbn; set_solver.
  - destruct (Hcm (HmCachePoW (CachePoW (pc_string cfg) (avr_difficulty_factor v) (avr_duration v) id))) as (h & r & Hm).
    rewrite Hm in E. destruct r as [[u|e]| |]; try done; injection E as <- <-.
    all: split; [first [by apply Hde|apply Hin; [done|]; done]|].
    all: repeat constructor; cbn; set_solver.
  - unfold s_return in E. injection E as <- <-. split; [by apply Hde|]. repeat constructor. cbn. set_solver.
  - destruct (Hcm (HmRetrivePoW (VerifyCaptchaResult (w_string w) (w_key w)))) as (h & r & Hm). rewrite Hm in E.
    destruct r as [|[[cfg|]|e]|]; try done; [case_decide| |]; injection E as <- <-.
    all: split; [first [by apply Hde|apply Hin; [done|]; cbn; set_solver]|].
    all: repeat constructor; cbn; set_solver.
  - unfold s_return in E. destruct (validate l _) as [sends returns].
    destruct (q_step p (sy_q s) _) as [[q os]|]; destruct (qs_mgr (sy_q s)); try done; injection E as <- <-.
    all: split; [first [by apply Hde|apply Hin; [done|]; cbn; set_solver]|].
    all: repeat constructor; cbn; set_solver.
  - unfold s_return in E. destruct (sy_answers s !! j) as [[u|e]|]; [| |destruct (qs_mgr (sy_q s)); try done]; injection E as <- <-.
    all: split; [first [by apply Hde|apply Hin; [done|]; cbn; set_solver]|].
    all: repeat constructor; cbn; set_solver.
  - unfold s_return in E. destruct (sy_jobs s !! j) as [v|]; [|done].
    destruct (vj_buf v) as [|[] rest]; [destruct (job_live (sy_q s) j); [done|]| |]; injection E as <- <-.
    all: split; [first [by apply Hde|apply Hin; [done|]; cbn; set_solver]|].
    all: repeat constructor; cbn; set_solver.
  - destruct (Hcm (HmCacheResult (cached_into_result cfg t))) as (h & r & Hm). rewrite Hm in E.
    destruct r as [[u|e]| |]; try done; injection E as <- <-.
    all: split; [first [by apply Hde|apply Hin; [done|]; done]|].
    all: repeat constructor; cbn; set_solver.
  - unfold s_return in E. injection E as <- <-. split; [by apply Hde|]. repeat constructor. cbn. set_solver.
  - destruct (Hcm (HmVerifyCaptchaResult m)) as (h & r & Hm). rewrite Hm in E.
    destruct r as [| |b]; try done; injection E as <- <-.
    all: split; [first [by apply Hde|apply Hin; [done|]; cbn; set_solver]|].
    all: repeat constructor; cbn; set_solver.
  - unfold s_return in E. injection E as <- <-. split; [by apply Hde|]. repeat constructor. cbn. set_solver.
Qed.

Lemma unheld_step p l s e s' o x : s_step p l s e = Some (s', o) -> unheld x s -> x ∉ e_named e ->
  unheld x s' /\ Forall (fun o => x ∉ told o) o.
Proof.
  intros E Hu Hx. unfold s_step, s_queue in E.
  assert (E' : match e with
    | SeCall c => s' = SSys (sy_m s) (sy_c s) (sy_q s) (sy_replies s) (sy_answers s) (sy_jobs s)
                (<[sy_next s := client_start c]> (sy_clients s)) (S (sy_next s)) /\ o = [SoCall (sy_next s) c]
    | SeAct n rnd => exists c, sy_clients s !! n = Some c /\ client_act p l s n c rnd = Some (s', o)
    | SeCancel n => (exists c, s' = leave s n c) /\ o = [SoCancel n]
    | _ => sy_clients s' = sy_clients s /\ Forall (fun o => told o = []) o
    end).
  { destruct (qs_mgr (sy_q s)); try done.
    all: destruct e as [c|n rnd|n|e| |r|r|r|due d|d]; try (by injection E as <- <-).
    all: try (destruct (sy_clients s !! n) as [c|] eqn:Ec; [|done]).
    all: try (by exists c).
    all: try (injection E as <- <-; split; [by exists c|done]).
    all: try (destruct (running_job (sy_q s) r) as [j|]; [|done]; destruct (sy_jobs s !! j) as [v|]; [|done]; destruct (vj_todo v)).
    all: try (destruct (negb (vj_open v)); [|destruct (_ <? _)%nat]).
    all: try (destruct (m_step p (sy_m s) e) as [[m os]|]; destruct e).
    all: try (destruct (m_step p (sy_m s) (MeTick d)) as [[m os]|]).
    all: try (destruct (q_step p (sy_q s) _) as [[q os]|]).
    all: try (destruct (hc_expire _ _ _ _) as [h|]).
    all: try discriminate E.
    all: injection E as <- <-; split; [reflexivity|repeat constructor]. }
  clear E. destruct e as [c|n rnd|n|e| |r|r|r|due d|d].
  - destruct E' as [-> ->]. split.
    + intros m c'. cbn. apply unheld_insert; [done|]. destruct c; cbn in *; set_solver.
    + repeat constructor. destruct c; cbn in *; set_solver.
  - destruct E' as (c & Hc & E). apply (unheld_act _ _ _ _ _ _ _ _ _ E Hc Hu). cbn in Hx. set_solver.
  - destruct E' as [[c ->] ->]. split; [|repeat constructor; cbn; set_solver]. intros m c'. cbn. by apply unheld_delete.
  - destruct E' as [E1 E2]. split; [intros m c'; rewrite E1; apply Hu|]. eapply Forall_impl; [exact E2|]. intros o' ->. set_solver.
  - destruct E' as [E1 E2]. split; [intros m c'; rewrite E1; apply Hu|]. eapply Forall_impl; [exact E2|]. intros o' ->. set_solver.
  - destruct E' as [E1 E2]. split; [intros m c'; rewrite E1; apply Hu|]. eapply Forall_impl; [exact E2|]. intros o' ->. set_solver.
  - destruct E' as [E1 E2]. split; [intros m c'; rewrite E1; apply Hu|]. eapply Forall_impl; [exact E2|]. intros o' ->. set_solver.
  - destruct E' as [E1 E2]. split; [intros m c'; rewrite E1; apply Hu|]. eapply Forall_impl; [exact E2|]. intros o' ->. set_solver.
  - destruct E' as [E1 E2]. split; [intros m c'; rewrite E1; apply Hu|]. eapply Forall_impl; [exact E2|]. intros o' ->. set_solver.
  - destruct E' as [E1 E2]. split; [intros m c'; rewrite E1; apply Hu|]. eapply Forall_impl; [exact E2|]. intros o' ->. set_solver.
Qed.

Lemma act_clients p l s n c rnd s' o : client_act p l s n c rnd = Some (s', o) ->
  sy_clients s' = delete n (sy_clients s) \/ exists c', sy_clients s' = <[n := c']> (sy_clients s) /\ forall w ip, c' <> VpStart w ip.
Proof.
  intros E.
  assert (Hcm : forall msg, exists h r, s_cache_msg s n msg = (with_c s h, r, [SoCache (Some n) (HeMsg msg) (Some r)])).
  { intros msg. unfold s_cache_msg. destruct (hc_handle _ _ msg) as [h r]. by exists h, r. }
  destruct c as [id|id k|id v cfg|cfg|w ip|w ip cfg|w cfg j|w cfg j|w cfg j t|w cfg j t|m|b]; cbn [client_act] in E;
    unfold s_return in E.
  - destruct (m_step p (sy_m s) _) as [[m os]|]; [|done]. injection E as <- <-. right. eexists. split; [reflexivity|done].
  - destruct (sy_replies s !! k) as [[[[v|]|]| | | | | ]|]; try done; injection E as <- <-; cbn; eauto.
  - destruct (Hcm (HmCachePoW (CachePoW (pc_string cfg) (avr_difficulty_factor v) (avr_duration v) id))) as (h & r & Hm).
    rewrite Hm in E. destruct r as [[u|e]| |]; try done; injection E as <- <-; first [by left|right; eexists; split; [reflexivity|done]].
  - injection E as <- <-. by left.
  - destruct (Hcm (HmRetrivePoW (VerifyCaptchaResult (w_string w) (w_key w)))) as (h & r & Hm). rewrite Hm in E.
    destruct r as [|[[cfg|]|e]|]; try done; [case_decide| |]; injection E as <- <-; try by left.
    right; eexists; split; [reflexivity|done].
  - destruct (validate l _) as [sends returns].
    destruct (q_step p (sy_q s) _) as [[q os]|]; destruct (qs_mgr (sy_q s)); try done; injection E as <- <-; try by left.
    all: right; eexists; split; [reflexivity|done].
  - destruct (sy_answers s !! j) as [[u|e]|]; [| |destruct (qs_mgr (sy_q s)); try done]; injection E as <- <-; try by left.
    right; eexists; split; [reflexivity|done].
  - destruct (sy_jobs s !! j) as [v|]; [|done].
    destruct (vj_buf v) as [|[] rest]; [destruct (job_live (sy_q s) j); [done|]| |]; injection E as <- <-; try by left.
    right; eexists; split; [reflexivity|done].
  - destruct (Hcm (HmCacheResult (cached_into_result cfg t))) as (h & r & Hm). rewrite Hm in E.
    destruct r as [[u|e]| |]; try done; injection E as <- <-; try by left. right; eexists; split; [reflexivity|done].
  - injection E as <- <-. by left.
  - destruct (Hcm (HmVerifyCaptchaResult m)) as (h & r & Hm). rewrite Hm in E.
    destruct r as [| |b]; try done; injection E as <- <-. right; eexists; split; [reflexivity|done].
  - injection E as <- <-. by left.
Qed.

Definition worked (e : sevent) : list string := match e with SeCall (CVerifyPow w _) => [w_string w] | _ => [] end.
Lemma unasked_step p l s e s' o x : s_step p l s e = Some (s', o) -> unasked x s -> x ∉ worked e -> unasked x s'.
Proof.
  intros E Hu Hx. unfold s_step, s_queue in E.
  assert (E' : match e with
    | SeCall c => sy_clients s' = <[sy_next s := client_start c]> (sy_clients s)
    | SeAct n rnd => exists c, client_act p l s n c rnd = Some (s', o)
    | SeCancel n => sy_clients s' = delete n (sy_clients s)
    | _ => sy_clients s' = sy_clients s
    end).
  { destruct (qs_mgr (sy_q s)); try done.
    all: destruct e as [c|n rnd|n|e| |r|r|r|due d|d]; try (by injection E as <- <-).
    all: try (destruct (sy_clients s !! n) as [c|] eqn:Ec; [|done]).
    all: try (by exists c).
    all: try (injection E as <- <-; done).
    all: try (destruct (running_job (sy_q s) r) as [j|]; [|done]; destruct (sy_jobs s !! j) as [v|]; [|done]; destruct (vj_todo v)).
    all: try (destruct (negb (vj_open v)); [|destruct (_ <? _)%nat]).
    all: try (destruct (m_step p (sy_m s) e) as [[m os]|]; destruct e).
    all: try (destruct (m_step p (sy_m s) (MeTick d)) as [[m os]|]).
    all: try (destruct (q_step p (sy_q s) _) as [[q os]|]).
    all: try (destruct (hc_expire _ _ _ _) as [h|]).
    all: try discriminate E.
    all: injection E as <- <-; reflexivity. }
  clear E. destruct e as [c|n rnd|n|e| |r|r|r|due d|d]; try (intros m w ip; rewrite E'; apply Hu).
  - intros m w ip. rewrite E'. intros [[_ H]|[_ H]]%lookup_insert_Some; [|by apply (Hu _ _ _ H)].
    destruct c as [|w' ip'|]; cbn in H; try discriminate H. injection H as -> ->. cbn in Hx. set_solver.
  - destruct E' as [c E]. intros m w ip. apply act_clients in E as [E|(c' & E & Hc)]; rewrite E.
    + intros [_ H]%lookup_delete_Some. by apply (Hu _ _ _ H).
    + intros [[_ H]|[_ H]]%lookup_insert_Some; [by destruct (Hc _ _ H)|]. by apply (Hu _ _ _ H).
  - intros m w ip. rewrite E'. intros [_ H]%lookup_delete_Some. by apply (Hu _ _ _ H).
Qed.

(** * The game *)
Lemma made_swap d d' v : d ∉ named v -> d' ∉ named v -> rn_event (swap d d') (made d v) = made d' v.
Proof.
  intros H1 H2.
  destruct v as [[c|n rnd|n|e| |r|r|r|due x|x]|n|due|due|key]; cbn [made rn_event]; try done.
  - destruct c as [id|w ip|[t k]]; try done. unfold rn_vcr. cbn. by rewrite swap_other by (cbn in *; set_solver).
  - by rewrite swap_other by (cbn in *; set_solver).
  - destruct x as [x|x]; cbn in *; by rewrite swap_other by set_solver.
  - by rewrite swap_l.
  - cbn. by rewrite swap_l.
  - cbn. by rewrite swap_l.
  - unfold rn_vcr. cbn. by rewrite swap_l.
Qed.
Lemma made_named d v x : x ∉ named v -> x <> d -> x ∉ e_named (made d v).
Proof. intros H1 H2. destruct v; [done|..]; cbn; set_solver. Qed.
Lemma made_worked d v x : x ∉ named v -> x ∉ worked (made d v).
Proof. intros H1. destruct v as [[[]| | | | | | | | |]|n|due|due|key]; cbn in *; set_solver. Qed.
Lemma seen_swap d d' o : d <> d' -> d' ∉ told o -> seen1 d' (rn_out (swap d d') o) = seen1 d o.
Proof.
  intros Hn Ht.
  assert (Hh : forall x, x <> d' -> hidden d' (swap d d' x) = hidden d x).
  { intros x Hx. unfold hidden, swap. repeat case_decide; congruence. }
  destruct o as [n c|n r|n|n e os|n e r|n e os]; cbn; try done.
  - destruct c as [id|w ip|m]; try done. cbn in *. rewrite Hh; [done|set_solver].
  - destruct r as [[[c|]|]|[[t f]|]| |]; cbn in *; try done.
    + rewrite Hh; [done|set_solver].
    + rewrite Hh; [done|set_solver].
Qed.
Lemma seens_swap d d' os : d <> d' -> Forall (fun o => d' ∉ told o) os -> seen d' (map (rn_out (swap d d')) os) = seen d os.
Proof.
  intros Hn H. unfold seen. induction H as [|o os Ho _ IH]; [done|]. cbn. rewrite (seen_swap d d' o Hn Ho). cbn in IH. by rewrite IH.
Qed.

Section game.
  Context (p : profile) (l : pow_lib) (start : ssys) (A : record -> move).
  Context (Hc : sy_clients start = ∅) (Hh : sy_c start = hc_default).
  Notation G := (game p l start A).

  Definition common (k : nat) (log : record) : Prop :=
    (forall d, d ∉ guesses log -> (G d k).2 = log /\ unasked d (G d k).1) /\
    (forall d d', d ∉ guesses log -> d' ∉ guesses log -> d <> d' ->
       (G d' k).1 = rn_sys (swap d d') (G d k).1 /\ unheld d' (G d k).1).
  Lemma rn_start f : rn_sys f start = start.
  Proof using Hc Hh. destruct start as [m h q r a j c n]. cbn in *. subst. unfold rn_sys. cbn. rewrite fmap_empty. done. Qed.
  Lemma guesses_snoc log v o : guesses (log ++ [(v, o)]) = guesses log ++ named v.
  Proof using. unfold guesses. rewrite map_app, concat_app. cbn. by rewrite app_nil_r. Qed.
  Lemma common_game k : exists log, common k log /\ length log = k.
  Proof using Hc Hh.
    induction k as [|k (log & [I1 I2] & Hlen)].
    - exists []. split; [|done]. split.
      + intros d _. cbn. split; [done|]. intros n w ip. by rewrite Hc, lookup_empty.
      + intros d d' _ _ _. cbn. split; [by rewrite rn_start|]. intros n c. by rewrite Hc, lookup_empty.
    - set (v := A log). set (d0 := fresh (guesses log ++ named v)).
      assert (H0 : d0 ∉ guesses log ++ named v) by apply infinite_is_fresh.
      apply not_elem_of_app in H0 as [H0 H0'].
      assert (Hstep : forall d d', d ∉ guesses log ++ named v -> d' ∉ guesses log ++ named v -> d <> d' ->
        unheld d' (G d k).1 /\
        s_step p l (G d' k).1 (made d' v) = rn_res (swap d d') <$> s_step p l (G d k).1 (made d v)).
      { intros d d' Hd Hd' Hn. apply not_elem_of_app in Hd as [Hd1 Hd2]. apply not_elem_of_app in Hd' as [Hd1' Hd2'].
        destruct (I2 d d' Hd1 Hd1' Hn) as [E Hu]. split; [done|]. rewrite E.
        rewrite <- (made_swap d d' v Hd2 Hd2'). apply rn_step; [apply swap_inv| |].
        - intros n w ip Hw. apply swap_other.
          + apply (proj2 (I1 d Hd1) _ _ _ Hw).
          + intros Hx. apply (Hu _ _ Hw). cbn. rewrite Hx. set_solver.
        - pose proof (made_worked d v d Hd2). pose proof (made_worked d v d' Hd2').
          destruct (made d v) as [[|w ip|]| | | | | | | | |]; try done. cbn in *. apply swap_other; set_solver. }
      set (log' := log ++ [(v, match s_step p l (G d0 k).1 (made d0 v) with Some (_, os) => Some (seen d0 os) | None => None end)]).
      assert (Hg : guesses log' = guesses log ++ named v) by apply guesses_snoc.
      assert (HS : forall d, d ∉ guesses log ->
        G d (S k) = match s_step p l (G d k).1 (made d v) with
                    | Some (s', os) => (s', log ++ [(v, Some (seen d os))])
                    | None => ((G d k).1, log ++ [(v, None)]) end).
      { intros d Hd. cbn. pose proof (proj1 (I1 d Hd)) as El. destruct (G d k) as [s lg]. cbn [fst snd] in *. by subst lg. }
      exists log'. split; [|unfold log'; rewrite app_length; cbn; lia]. split.
      + intros d Hd. rewrite Hg in Hd. pose proof Hd as [Hd1 Hd2]%not_elem_of_app. rewrite (HS d Hd1). split.
        * destruct (decide (d0 = d)) as [<-|Hn]; [unfold log'; by destruct (s_step _ _ _ _) as [[s' os]|]|].
          destruct (Hstep d0 d) as [Hu E]; [by apply not_elem_of_app|by apply not_elem_of_app|done|].
          rewrite E. unfold log'. destruct (s_step p l (G d0 k).1 (made d0 v)) as [[s' os]|] eqn:Es; [|done].
          cbn [fmap option_fmap option_map rn_res fst snd]. rewrite seens_swap; [done|done|].
          apply (unheld_step _ _ _ _ _ _ d Es Hu). apply made_named; [done|]. intros ->. by apply Hn.
        * destruct (s_step p l (G d k).1 (made d v)) as [[s' os]|] eqn:Es; cbn; [|by apply I1].
          apply (unasked_step _ _ _ _ _ _ d Es); [by apply I1|]. by apply made_worked.
      + intros d d' Hd Hd' Hn. rewrite Hg in Hd, Hd'. pose proof Hd as [Hd1 Hd2]%not_elem_of_app.
        pose proof Hd' as [Hd1' Hd2']%not_elem_of_app. destruct (Hstep d d' Hd Hd' Hn) as [Hu E].
        rewrite (HS d Hd1), (HS d' Hd1'), E.
        destruct (s_step p l (G d k).1 (made d v)) as [[s' os]|] eqn:Es; cbn.
        * split; [done|]. apply (unheld_step _ _ _ _ _ _ d' Es Hu). apply made_named; [done|]. intros ->. by apply Hn.
        * by apply I2.
  Qed.
End game.

(** * The strings that may be drawn *)
Fixpoint strings (cs : list ascii) (n : nat) : list string :=
  match n with O => [EmptyString] | S n => concat (map (fun c => map (String c) (strings cs n)) cs) end.
Lemma strings_elem cs n s : s ∈ strings cs n <-> String.length s = n /\ Forall (fun c => c ∈ cs) (chars s).
Proof.
  revert s. induction n as [|n IH]; intros s; cbn.
  - rewrite elem_of_list_singleton. split; [intros ->; split; [done|constructor]|]. intros [H _]. by destruct s.
  - rewrite elem_of_list_In, in_concat. split.
    + intros (x & Hx & Hs). apply in_map_iff in Hx as (c & <- & Hc). apply in_map_iff in Hs as (s' & <- & Hs').
      apply elem_of_list_In, IH in Hs' as [H1 H2]. cbn. split; [by rewrite H1|]. apply Forall_cons. split; [by apply elem_of_list_In|done].
    + destruct s as [|c s]; [by intros [? _]|]. cbn. intros [[= H1] H2]. apply Forall_cons in H2 as [H2 H3].
      exists (map (String c) (strings cs n)). split; [apply in_map_iff; exists c; split; [done|by apply elem_of_list_In]|].
      apply in_map, elem_of_list_In, IH. done.
Qed.
Lemma strings_nodup cs n : NoDup cs -> NoDup (strings cs n).
Proof.
  intros Hn. induction n as [|n IH]; cbn; [apply NoDup_singleton|]. revert IH. generalize (strings cs n) as l. intros l IH.
  induction Hn as [|c cs' Hc Hn IHc]; [apply NoDup_nil_2|].
  cbn. apply NoDup_app. split; [|split; [|done]].
  - apply NoDup_fmap_2; [|done]. by intros a b [= ->].
  - intros x Hx. apply elem_of_list_In, in_map_iff in Hx as (s & <- & _). rewrite elem_of_list_In, in_concat.
    intros (y & Hy & Hs). apply in_map_iff in Hy as (c' & <- & Hc'). apply in_map_iff in Hs as (s' & [= -> ->] & _).
    apply Hc. by apply elem_of_list_In.
Qed.
Lemma strings_length cs n : N.of_nat (length (strings cs n)) = N.of_nat (length cs) ^ N.of_nat n.
Proof.
  induction n as [|n IH]; [done|]. rewrite Nat2N.inj_succ, N.pow_succ_r', <- IH. cbn [strings]. clear IH.
  generalize (strings cs n) as l. intros l. induction cs as [|c cs' IHc]; [done|]. cbn [map concat length].
  rewrite app_length, map_length. lia.
Qed.
Lemma charset_nodup : NoDup (chars charset).
Proof. apply (bool_decide_eq_true_1 (NoDup (chars charset))). vm_compute. reflexivity. Qed.
Lemma get_elem s n c : String.get n s = Some c -> c ∈ chars s.
Proof.
  revert n. induction s as [|a s IH]; intros n; [by destruct n|]. destruct n; cbn; [intros [= ->]; left|]. intros H. right. by apply (IH n).
Qed.
Lemma charset_alnum c : c ∈ chars charset <-> alnum c.
Proof.
  split; [|intros H; by apply (get_elem _ _ _ (proj1 (index_get c H)))].
  intros H. assert (Ha : Forall alnum (chars charset)).
  { eapply (Forall_impl (fun a => alnumb a = true)); [|intros a; apply alnumb_spec].
    repeat (apply Forall_cons; split; [reflexivity|]). by apply Forall_nil. }
  rewrite Forall_forall in Ha. by apply Ha.
Qed.
Lemma random_space : forall len, exists secrets,
  NoDup secrets /\ N.of_nat (length secrets) = 62 ^ N.of_nat len /\
  forall s, s ∈ secrets <-> exists draws rest, get_random len draws = Some (s, rest).
Proof.
  intros n. exists (strings (chars charset) n). split; [apply strings_nodup, charset_nodup|].
  split; [rewrite strings_length; done|]. intros s. rewrite strings_elem. split.
  - intros [Hl Hc]. destruct (get_random_all s) as (ds & _ & _ & Hg).
    { eapply Forall_impl; [exact Hc|]. intros c. apply charset_alnum. }
    rewrite Hl in Hg. eauto.
  - intros (ds & rest & Hg). destruct (get_random_some _ _ _ _ Hg) as (used & _ & Hc & Hl). split.
    + rewrite <- Hl. clear. induction s as [|c s IH]; [done|]. cbn. by rewrite IH.
    + rewrite Hc. eapply Forall_impl; [apply omap_alnum|]. intros c. apply charset_alnum.
Qed.

(** * Where challenges and tokens come from *)
Definition keeps (c : client) : option (bool * string) :=
  match c with
  | GpCache _ _ cfg | GpDone cfg => Some (false, pc_string cfg)
  | VpStore _ _ _ t | VpDone _ _ _ t => Some (true, t)
  | _ => None
  end.
Definition says (o : sout) : option (bool * nat * string) :=
  match o with
  | SoRet n (RGetPow (Ok (Some c))) => Some (false, n, pc_string c)
  | SoRet n (RVerifyPow (Ok (t, _))) => Some (true, n, t)
  | SoCache (Some n) (HeMsg (HmCachePoW m)) _ => Some (false, n, cp_string m)
  | SoCache (Some n) (HeMsg (HmCacheResult m)) _ => Some (true, n, cr_token m)
  | _ => None
  end.
Lemma act_drew p l s n c rnd s' o : client_act p l s n c rnd = Some (s', o) -> sy_clients s !! n = Some c ->
  (forall m, m <> n -> sy_clients s' !! m = sy_clients s !! m) /\
  (forall c' y, sy_clients s' !! n = Some c' -> keeps c' = Some y -> keeps c = Some y \/ (y.2 = rnd /\ drawing y.1 s n)) /\
  Forall (fun o' => forall b m x, says o' = Some (b, m, x) -> m = n /\ keeps c = Some (b, x)) o.
Proof.
  intros E Hc.
  assert (Hcm : forall msg, exists h r, s_cache_msg s n msg = (with_c s h, r, [SoCache (Some n) (HeMsg msg) (Some r)])).
  { intros msg. unfold s_cache_msg. destruct (hc_handle _ _ msg) as [h r]. by exists h, r. }
  assert (Hin : forall s1 c1, sy_clients s1 = sy_clients s -> with_client s1 n c1 = s' ->
    (forall y, keeps c1 = Some y -> keeps c = Some y \/ (y.2 = rnd /\ drawing y.1 s n)) ->
    (forall m, m <> n -> sy_clients s' !! m = sy_clients s !! m) /\
    (forall c' y, sy_clients s' !! n = Some c' -> keeps c' = Some y -> keeps c = Some y \/ (y.2 = rnd /\ drawing y.1 s n))).
  { intros s1 c1 H1 <- H2. cbn. rewrite H1. split; [intros m Hm; by rewrite lookup_insert_ne|].
    intros c' y. rewrite lookup_insert. intros [= <-]. apply H2. }
  assert (Hde : forall s1 c1, sy_clients s1 = sy_clients s -> leave s1 n c1 = s' ->
    (forall m, m <> n -> sy_clients s' !! m = sy_clients s !! m) /\
    (forall c' y, sy_clients s' !! n = Some c' -> keeps c' = Some y -> keeps c = Some y \/ (y.2 = rnd /\ drawing y.1 s n))).
  { intros s1 c1 H1 <-. cbn. rewrite H1. split; [intros m Hm; by rewrite lookup_delete_ne|]. intros c' y. by rewrite lookup_delete. }
  apply Logic.and_assoc.
  destruct c as [id|id k|id v cfg|cfg|w ip|w ip cfg|w cfg j|w cfg j|w cfg j t|w cfg j t|m|b]; cbn [client_act] in E;
    unfold s_return in E.
  - destruct (m_step p (sy_m s) _) as [[m os]|]; [|done]. injection E as E <-. split; [eapply Hin; [|exact E|]; done|]. repeat constructor; discriminate.
  - destruct (sy_replies s !! k) as [[[[v|]|]| | | | | ]|]; try done; injection E as E <-.
    2-8: split; [eapply Hde; [|exact E]; done|]; repeat constructor; discriminate.
    split; [|constructor]. eapply Hin; [|exact E|]; [done|]. intros y [= <-]. right. cbn. split; [done|]. unfold drawing. by rewrite Hc.
  - destruct (Hcm (HmCachePoW (CachePoW (pc_string cfg) (avr_difficulty_factor v) (avr_duration v) id))) as (h & r & Hm).
    rewrite Hm in E. destruct r as [[u|e]| |]; try done; injection E as E <-.
    split; [eapply Hin; [|exact E|]; [done|]; intros y Hy; by left|]. repeat constructor; cbn in *; congruence.
  - injection E as E <-. split; [eapply Hde; [|exact E]; done|]. repeat constructor; cbn in *; congruence.
  - destruct (Hcm (HmRetrivePoW (VerifyCaptchaResult (w_string w) (w_key w)))) as (h & r & Hm). rewrite Hm in E.
    destruct r as [|[[cfg|]|e]|]; try done; [case_decide| |]; injection E as E <-.
    1: split; [eapply Hin; [|exact E|]; done|]; repeat constructor; discriminate.
    all: split; [eapply Hde; [|exact E]; done|]; repeat constructor; discriminate.
  - destruct (validate l _) as [sends returns].
    destruct (q_step p (sy_q s) _) as [[q os]|]; destruct (qs_mgr (sy_q s)); try done; injection E as E <-.
    all: split; [first [eapply Hde; [|exact E]; done|eapply Hin; [|exact E|]; done]|]; repeat constructor; discriminate.
  - destruct (sy_answers s !! j) as [[u|e]|]; [| |destruct (qs_mgr (sy_q s)); try done]; injection E as E <-.
    all: split; [first [eapply Hde; [|exact E]; done|eapply Hin; [|exact E|]; done]|]; repeat constructor; discriminate.
  - destruct (sy_jobs s !! j) as [v|]; [|done].
    destruct (vj_buf v) as [|[] rest]; [destruct (job_live (sy_q s) j); [done|]| |]; injection E as E <-.
    1,3: split; [eapply Hde; [|exact E]; done|]; repeat constructor; discriminate.
    split; [|constructor]. eapply Hin; [|exact E|]; [done|]. intros y [= <-]. right. cbn. split; [done|]. unfold drawing. by rewrite Hc.
  - destruct (Hcm (HmCacheResult (cached_into_result cfg t))) as (h & r & Hm). rewrite Hm in E.
    destruct r as [[u|e]| |]; try done; injection E as E <-.
    split; [eapply Hin; [|exact E|]; [done|]; intros y Hy; by left|]. repeat constructor; cbn in *; congruence.
  - injection E as E <-. split; [eapply Hde; [|exact E]; done|]. repeat constructor; cbn in *; congruence.
  - destruct (Hcm (HmVerifyCaptchaResult m)) as (h & r & Hm). rewrite Hm in E.
    destruct r as [| |b]; try done; injection E as E <-. split; [eapply Hin; [|exact E|]; done|]. repeat constructor; discriminate.
  - injection E as E <-. split; [eapply Hde; [|exact E]; done|]. repeat constructor; discriminate.
Qed.
Lemma step_drew p l s e s' o : s_step p l s e = Some (s', o) ->
  (exists n rnd c, e = SeAct n rnd /\ sy_clients s !! n = Some c /\ client_act p l s n c rnd = Some (s', o)) \/
  ((forall n c y, sy_clients s' !! n = Some c -> keeps c = Some y -> sy_clients s !! n = Some c) /\ Forall (fun o' => says o' = None) o).
Proof.
  intros E. unfold s_step, s_queue in E.
  destruct (qs_mgr (sy_q s)); try done.
  all: destruct e as [c|n rnd|n|e| |r|r|r|due d|d].
  all: try (destruct (sy_clients s !! n) as [c|] eqn:Ec; [|done]).
  all: try (left; by exists n, rnd, c).
  all: right.
  all: try (injection E as <- <-; split; [|by repeat constructor]; cbn; intros m c' y;
    first [intros [_ H]%lookup_delete_Some; by intros _|intros [[_ <-]|[_ H]]%lookup_insert_Some; [by destruct c|by intros _]]).
  all: try (destruct (running_job (sy_q s) r) as [j|]; [|done]; destruct (sy_jobs s !! j) as [v|]; [|done]; destruct (vj_todo v)).
  all: try (destruct (negb (vj_open v)); [|destruct (_ <? _)%nat]).
  all: try (destruct (m_step p (sy_m s) e) as [[m os]|]; destruct e).
  all: try (destruct (m_step p (sy_m s) (MeTick d)) as [[m os]|]).
  all: try (destruct (q_step p (sy_q s) _) as [[q os]|]).
  all: try (destruct (hc_expire _ _ _ _) as [h|]).
  all: try discriminate E.
  all: injection E as <- <-; split; [cbn; by intros|by repeat constructor].
Qed.
Lemma drew_more p l start es b n x e : drew p l start es b n x -> drew p l start (es ++ [e]) b n x.
Proof. intros (es1 & es2 & s1 & tr1 & -> & H). exists es1, (es2 ++ [e]), s1, tr1. split; [by rewrite <- app_assoc|done]. Qed.
Lemma g_run_snoc p l s es e : s_run p l s (es ++ [e]) =
  match s_run p l s es with
  | Some (s1, tr) => match s_step p l s1 e with Some (s2, o) => Some (s2, tr ++ o) | None => None end
  | None => None
  end.
Proof.
  revert s. induction es as [|e1 es IH]; intros s; cbn.
  - destruct (s_step p l s e) as [[s2 o]|]; [|done]. by rewrite app_nil_r.
  - destruct (s_step p l s e1) as [[s1 o1]|]; [|done]. rewrite IH. destruct (s_run p l s1 es) as [[s2 tr]|]; [|done].
    destruct (s_step p l s2 e) as [[s3 o]|]; [|done]. by rewrite app_assoc.
Qed.
Lemma run_drew p l start es s tr : sy_clients start = ∅ -> s_run p l start es = Some (s, tr) ->
  (forall n c b x, sy_clients s !! n = Some c -> keeps c = Some (b, x) -> drew p l start es b n x) /\
  (forall o b n x, o ∈ tr -> says o = Some (b, n, x) -> drew p l start es b n x).
Proof.
  intros H0. revert s tr. induction es as [|e es IH] using rev_ind; intros s tr.
  - cbn. intros [= <- <-]. rewrite H0. split; [intros n c b x; by rewrite lookup_empty|]. intros o b n x H. by apply elem_of_nil in H.
  - rewrite g_run_snoc. destruct (s_run p l start es) as [[s1 tr1]|] eqn:Er; [|done].
    destruct (s_step p l s1 e) as [[s2 o]|] eqn:Es; [|done]. intros [= <- <-]. destruct (IH _ _ eq_refl) as [I1 I2]. clear IH.
    apply step_drew in Es as [(m & rnd & c0 & -> & Hc0 & Ea)|[Hk Ho]].
    + apply act_drew in Ea as (A1 & A2 & A3); [|done]. split.
      * intros n c b x Hn Hk. destruct (decide (n = m)) as [->|Hne].
        -- destruct (A2 _ _ Hn Hk) as [H|[H1 H2]]; [by eapply drew_more, I1|]. cbn in *. subst x.
           exists es, [], s1, tr1. done.
        -- rewrite A1 in Hn by done. by eapply drew_more, I1.
      * intros o' b n x [Hi|Hi]%elem_of_app Hs; [by eapply drew_more, I2|].
        rewrite Forall_forall in A3. destruct (A3 _ Hi _ _ _ Hs) as [-> H]. by eapply drew_more, I1.
    + split.
      * intros n c b x Hn Hb. eapply drew_more, I1; [|done]. by eapply Hk.
      * intros o' b n x [Hi|Hi]%elem_of_app Hs; [by eapply drew_more, I2|].
        rewrite Forall_forall in Ho. rewrite (Ho _ Hi) in Hs. discriminate.
Qed.
