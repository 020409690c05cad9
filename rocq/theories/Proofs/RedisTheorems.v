(** Proofs of the theorems of Properties/RedisProperties.v. *)
From Coq Require Import Ascii.
From Coq Require Import ZifyBool ZifyN ZifyNat Lia.
From Verif Require Import Model.Base Model.Defense Model.MCaptcha Model.HashCache Model.Master Model.Queue Model.Pow
  Model.System Model.Json Model.Serde Model.Redis Model.RedisActor Model.RedisTokens
  Spec.DefenseSpec Spec.MCaptchaSpec Spec.SerdeSpec Spec.RedisSpec Spec.ReplySpec Proofs.JsonProofs Proofs.SerdeProofs
  Proofs.MCaptchaProofs Proofs.RedisProofs Proofs.ReplyProofs.

Lemma c59_validates_iff_alive : forall h now key token,
  exists b, outcome_of h (TokenEvent now (TkGet (VerifyCaptchaResult token key)) Answered) = Val (RoBool (Ok b)) /\
    (b = true <-> live (fun x => token_key x.1 x.2 = token_key key token) now h).
Proof. intros h now key token. exact (get_outcome h now (VerifyCaptchaResult token key)). Qed.

Lemma c59_own_site_only : forall h now key token,
  no_colon key -> Forall (fun e => no_colon (about (te_call e)).1) h ->
  exists b, outcome_of h (TokenEvent now (TkGet (VerifyCaptchaResult token key)) Answered) = Val (RoBool (Ok b)) /\
    (b = true <-> live (fun x => x = (key, token)) now h).
Proof.
  intros h now key token Hk Hh. destruct (c59_validates_iff_alive h now key token) as (b & Ho & Hb).
  exists b. split; [done|]. rewrite Hb.
  assert (Hall : Forall (fun e => token_key (about (te_call e)).1 (about (te_call e)).2 = token_key key token <->
    about (te_call e) = (key, token)) h).
  { apply (Forall_impl _ _ _ Hh). intros e He. split.
    - intros H. destruct (token_key_inj _ _ _ _ He Hk H) as [H1 H2]. rewrite <- H1, <- H2. by destruct (about (te_call e)).
    - by intros ->. }
  split; apply live_same; [done|]. apply (Forall_impl _ _ _ Hall). intros e He. by symmetry.
Qed.

Lemma c59_once : forall h1 h2 now1 now2 key token key' token',
  let e1 := TokenEvent now1 (TkGet (VerifyCaptchaResult token key)) Answered in
  let e2 := TokenEvent now2 (TkGet (VerifyCaptchaResult token' key')) Answered in
  token_key key token = token_key key' token' ->
  outcome_of h1 e1 = Val (RoBool (Ok true)) ->
  outcome_of (h1 ++ e1 :: h2) e2 = Val (RoBool (Ok true)) ->
  exists e m, e ∈ h2 /\ te_call e = TkAdd m /\ effective e /\
    token_key (cr_key m) (cr_token m) = token_key key token.
Proof.
  intros h1 h2 now1 now2 key token key' token' e1 e2 Hk _ H2.
  destruct (c59_validates_iff_alive (h1 ++ e1 :: h2) now2 key' token') as (b & Ho & Hb).
  unfold e2 in H2. rewrite Ho in H2. injection H2 as ->. destruct (proj1 Hb eq_refl) as (a & e & m & r & Hd & Hc & He & Hs & _ & Hr).
  cbn [fst snd] in Hs. assert (Hin : e ∈ h2); [|exists e, m; by rewrite Hk].
  assert (Ht : e1 <> e) by (intros <-; discriminate).
  assert (Hnr : e1 ∉ r).
  { intros Hin. rewrite Forall_forall in Hr. apply (Hr _ Hin); [by split|]. cbn. by rewrite Hk. }
  revert Hd. generalize h1. clear -Ht Hnr. induction a as [|x a IH]; intros h1 Hd.
  - destruct h1 as [|y h1]; injection Hd as Hx Hr; [done|]. destruct Hnr. rewrite <- Hr.
    apply elem_of_app. right. by left.
  - destruct h1 as [|y h1]; injection Hd as Hx Hr.
    + subst h2. apply elem_of_app. right. by left.
    + by apply (IH h1).
Qed.

Lemma c59_expired : forall h now key token,
  (forall e m, e ∈ h -> te_call e = TkAdd m -> token_key (cr_key m) (cr_token m) = token_key key token ->
     te_now e + cr_duration m * 1000 < now) ->
  outcome_of h (TokenEvent now (TkGet (VerifyCaptchaResult token key)) Answered) = Val (RoBool (Ok false)).
Proof.
  intros h now key token Hall. destruct (c59_validates_iff_alive h now key token) as (b & -> & Hb).
  destruct b; [|done]. destruct (proj1 Hb eq_refl) as (a & e & m & r & -> & Hc & _ & Hs & Hle & _).
  exfalso. specialize (Hall e m). cbn [fst snd] in Hs. assert (te_now e + cr_duration m * 1000 < now); [|lia].
  apply Hall; [|done|done]. apply elem_of_app. right. by left.
Qed.

Lemma c60_ambiguous_refuted :
  (** a token t of site "a:b" is accepted for site "a" as token "b:t", and is then used up *)
  (forall h a b t now dur later, storable now dur -> later <= now + dur * 1000 ->
     let site := a +:+ ":" +:+ b in
     let stored := h ++ [TokenEvent now (TkAdd (CacheResult t site dur)) Answered] in
     let forged := TokenEvent later (TkGet (VerifyCaptchaResult (b +:+ ":" +:+ t) a)) Answered in
     site <> a /\
     outcome_of stored forged = Val (RoBool (Ok true)) /\
     forall again, outcome_of (stored ++ [forged]) (TokenEvent again (TkGet (VerifyCaptchaResult t site)) Answered)
       = Val (RoBool (Ok false))) /\
  (** without colons in site names the key is unambiguous *)
  (forall k k' t t', no_colon k -> no_colon k' -> token_key k t = token_key k' t' -> k = k' /\ t = t').
Proof.
  split; [|exact token_key_inj].
  intros h a b t now dur later Hs Hl site stored forged. split; [|split].
  - intros H. assert (Hlen : String.length site = String.length a) by by rewrite H.
    unfold site in Hlen. rewrite !length_app_s in Hlen. cbn [String.length] in Hlen. lia.
  - destruct (c59_validates_iff_alive stored later a (b +:+ ":" +:+ t)) as (x & Ho & Hx). unfold forged. rewrite Ho.
    assert (x = true) as ->; [|done]. apply Hx. exists h, (TokenEvent now (TkAdd (CacheResult t site dur)) Answered),
      (CacheResult t site dur), []. do 2 (split; [done|]). split; [by split|].
    split; [|split; [done|by apply Forall_nil]]. cbn [cr_key cr_token fst snd]. unfold site. apply token_key_ambiguous.
  - intros again. destruct (c59_validates_iff_alive (stored ++ [forged]) again site t) as (x & -> & Hx).
    destruct x; [|done]. destruct (proj1 Hx eq_refl) as (h1 & e & m & h2 & Hd & Hc & He & Hk & _ & Hr).
    destruct h2 as [|y h2'] using rev_ind.
    + apply app_inj_tail in Hd as [_ <-]. discriminate.
    + clear IHh2'. change (e :: h2' ++ [y]) with ((e :: h2') ++ [y]) in Hd. rewrite app_assoc in Hd.
      apply app_inj_tail in Hd as [_ <-]. apply Forall_app in Hr as [_ Hr]. rewrite Forall_singleton in Hr.
      destruct Hr; [by split|]. cbn [about te_call vr_key vr_token fst snd]. symmetry. unfold site. apply token_key_ambiguous.
Qed.

Lemma c61_captcha_exists : forall c z, i64 z ->
  ro_reply (r_check_captcha_exists c) (RrVal (RvInt z)) =
    Val (if decide (z = 1%Z) then Ok false else if decide (z = 0%Z) then Ok true else Err MCaptchaRedisModuleError).
Proof.
  intros c z Hz. unfold i64 in Hz. cbn [r_check_captcha_exists ro_reply]. unfold exec. cbn [rerr to_usize]. unfold as_usize.
  destruct (decide (z = 1%Z)) as [->|H1]; [done|]. destruct (decide (z = 0%Z)) as [->|H0]; [done|].
  assert (Hm : (0 <= z mod 18446744073709551616 < 18446744073709551616)%Z) by (apply Z.mod_pos_bound; lia).
  assert (Hd : (z = 18446744073709551616 * (z / 18446744073709551616) + z mod 18446744073709551616)%Z)
    by (apply Z.div_mod; lia).
  destruct (N.eqb_spec (Z.to_N (z mod 18446744073709551616)) 1) as [E|E]; [exfalso; lia|].
  destruct (N.eqb_spec (Z.to_N (z mod 18446744073709551616)) 0) as [E'|E']; [exfalso; lia|]. done.
Qed.

Lemma c61_get_token : forall m z,
  (ro_reply (r_get_token m) (RrVal (RvInt z)) =
     Val (if decide (z mod 4294967296 = 1)%Z then Ok true
          else if decide (z mod 4294967296 = 0)%Z then Ok false else Err MCaptchaRedisModuleError)) /\
  (i32 z -> ro_reply (r_get_token m) (RrVal (RvInt z)) =
     Val (if decide (z = 1%Z) then Ok true else if decide (z = 0%Z) then Ok false else Err MCaptchaRedisModuleError)).
Proof.
  intros m z.
  assert (Has : forall r, (r = 0 \/ r = 1)%Z -> (as_i32 z = r <-> z mod 4294967296 = r)%Z).
  { intros r Hr. unfold as_i32.
    assert (0 <= (z + 2147483648) mod 4294967296 < 4294967296)%Z by (apply Z.mod_pos_bound; lia).
    assert (0 <= z mod 4294967296 < 4294967296)%Z by (apply Z.mod_pos_bound; lia).
    assert (z + 2147483648 = 4294967296 * ((z + 2147483648) / 4294967296) + (z + 2147483648) mod 4294967296)%Z
      by (apply Z.div_mod; lia).
    assert (z = 4294967296 * (z / 4294967296) + z mod 4294967296)%Z by (apply Z.div_mod; lia).
    lia. }
  assert (Hgen : ro_reply (r_get_token m) (RrVal (RvInt z)) =
     Val (if decide (z mod 4294967296 = 1)%Z then Ok true
          else if decide (z mod 4294967296 = 0)%Z then Ok false else Err MCaptchaRedisModuleError)).
  { cbn [r_get_token ro_reply]. unfold exec. cbn [rerr to_i32].
    destruct (Z.eqb_spec (as_i32 z) 1) as [E|E].
    - rewrite decide_True; [done|]. by apply Has; [right|].
    - rewrite decide_False by (intros H; apply E; by apply Has; [right|]).
      destruct (Z.eqb_spec (as_i32 z) 0) as [E0|E0].
      + rewrite decide_True; [done|]. by apply Has; [left|].
      + rewrite decide_False; [done|]. intros H. apply E0. by apply Has; [left|]. }
  split; [exact Hgen|]. intros Hz. rewrite Hgen. unfold i32 in Hz.
  assert (0 <= z mod 4294967296 < 4294967296)%Z by (apply Z.mod_pos_bound; lia).
  assert (z = 4294967296 * (z / 4294967296) + z mod 4294967296)%Z by (apply Z.div_mod; lia).
  repeat case_decide; try done; exfalso; lia.
Qed.

Lemma c61_errors : forall e,
  (forall id, ro_reply (r_add_visitor id) (RrErr e) = Val (Err (RedisError e))) /\
  (forall id m, ro_reply (r_add_mcaptcha id m) (RrErr e) = Val (Err (RedisError e))) /\
  (forall c, ro_reply (r_check_captcha_exists c) (RrErr e) = Val (Err (RedisError e))) /\
  (forall c, ro_reply (r_delete_captcha c) (RrErr e) = Val (Err (RedisError e))) /\
  (forall a b, ro_reply (r_rename_captcha a b) (RrErr e) = Val (Err (RedisError e))) /\
  (forall c x, ro_reply (r_add_challenge c x) (RrErr e) = Val (Err (RedisError e))) /\
  (forall m, ro_reply (r_get_challenge m) (RrErr e) = Val (Err (RedisError e))) /\
  (forall m, ro_reply (r_delete_challenge m) (RrErr e) = Val (Err (RedisError e))) /\
  (forall c, ro_reply (r_get_visitors c) (RrErr e) = Val (Err (RedisError e))) /\
  (forall m, ro_reply (r_get_token m) (RrErr e) = Val (Err (RedisError e))) /\
  (forall m, ro_reply (r_delete_token m) (RrErr e) = Val (Err (RedisError e))) /\
  (forall m, ro_reply (r_add_token m) (RrErr e) = Panic).
Proof. intros e. split_and!; intros; done. Qed.

Lemma c61_visit_replies : forall id m v r,
  ok_visit v ->
  (ro_reply (r_add_visitor id) (RrVal (RvBulk (to_string encode_visit v))) = Val (Ok (Some v)) /\
   ro_reply (r_get_challenge m) (RrVal (RvBulk (to_string encode_visit v))) = Val (Ok v)) /\
  (to_str r = None -> exists e, ro_reply (r_add_visitor id) (RrVal r) = Val (Err e) /\
     ro_reply (r_get_challenge m) (RrVal r) = Val (Err e)) /\
  (forall s, to_str r = Some s -> from_str decode_visit s = None ->
     ro_reply (r_add_visitor id) (RrVal r) = Panic /\ ro_reply (r_get_challenge m) (RrVal r) = Panic).
Proof.
  intros id m v r Hv. pose proof (survives_dec _ _ ok_visit dec_visit v Hv) as Hs.
  cbn [r_add_visitor r_get_challenge ro_reply]. unfold exec. cbn [rerr to_str]. rewrite Hs. split; [done|]. split.
  - intros ->. eauto.
  - intros s -> ->. done.
Qed.

Lemma c61_text_numbers : forall c m t v, v = RvBulk t \/ v = RvSimple t ->
  let bad := RedisError "type" in
  ro_reply (r_get_visitors c) (RrVal v) =
    Val (match unsigned_text t with
         | Some n => if decide (n <= 18446744073709551615) then Ok n else Err bad
         | None => Err bad
         end) /\
  ro_reply (r_check_captcha_exists c) (RrVal v) =
    Val (match unsigned_text t with
         | Some n => if decide (n = 0) then Ok true else if decide (n = 1) then Ok false
                     else if decide (n <= 18446744073709551615) then Err MCaptchaRedisModuleError else Err bad
         | None => Err bad
         end) /\
  ro_reply (r_get_token m) (RrVal v) =
    Val (match signed_text t with
         | Some z => if decide (z = 0%Z) then Ok false else if decide (z = 1%Z) then Ok true
                     else if decide (i32 z) then Err MCaptchaRedisModuleError else Err bad
         | None => Err bad
         end).
Proof.
  intros c m t v Hv bad. cbn [r_get_visitors r_check_captcha_exists r_get_token ro_reply]. unfold exec.
  assert (Hu : rerr (RrVal v) to_usize = match unsigned_text t with
    | Some n => if n <=? u64_max then Ok n else Err bad | None => Err bad end).
  { cbn [rerr]. rewrite <- number_text. destruct Hv as [-> | ->]; cbn [to_usize]; destruct (number t) as [n|]; try done;
      by destruct (n <=? u64_max). }
  assert (Hz : rerr (RrVal v) to_i32 = match signed_text t with
    | Some z => if ((-2147483648 <=? z) && (z <=? 2147483647))%Z then Ok z else Err bad | None => Err bad end).
  { cbn [rerr]. rewrite <- znumber_text. destruct Hv as [-> | ->]; cbn [to_i32]; destruct (znumber t) as [n|]; try done;
      by destruct ((-2147483648 <=? n) && (n <=? 2147483647))%Z. }
  rewrite Hu, Hz. unfold u64_max, i32. split_and!.
  - destruct (unsigned_text t) as [n|]; [|done]. case_decide as H; [by rewrite (proj2 (N.leb_le _ _) H)|].
    destruct (N.leb_spec n 18446744073709551615); [lia|done].
  - destruct (unsigned_text t) as [n|]; [|done]. destruct (N.leb_spec n 18446744073709551615);
      destruct (N.eqb_spec n 1), (N.eqb_spec n 0); repeat case_decide; try done; exfalso; lia.
  - destruct (signed_text t) as [z|]; [|done].
    destruct ((-2147483648 <=? z) && (z <=? 2147483647))%Z eqn:Hb;
      destruct (Z.eqb_spec z 1), (Z.eqb_spec z 0); repeat case_decide; try done; exfalso; lia.
Qed.

Lemma c61_no_numbers : forall c m v, (forall z, v <> RvInt z) -> (forall t, v <> RvBulk t) -> (forall t, v <> RvSimple t) ->
  ro_reply (r_get_visitors c) (RrVal v) = Val (Err (RedisError "type")) /\
  ro_reply (r_check_captcha_exists c) (RrVal v) = Val (Err (RedisError "type")) /\
  ro_reply (r_get_token m) (RrVal v) = Val (Err (RedisError "type")).
Proof. intros c m v H1 H2 H3. destruct v as [|z|s|s| |]; try done; exfalso; solve [by apply (H1 z)|by apply (H2 s)|by apply (H3 s)]. Qed.

Lemma c61_ping : forall r, ping_reply r = true <-> r = RrVal (RvSimple "PONG").
Proof.
  intros r. split; [|by intros ->]. destruct r as [[| | |s| |]|]; try done. cbn [ping_reply]. intros H.
  by apply String.eqb_eq in H as ->.
Qed.

Lemma c62_first_entry_only_refuted :
  (** whatever comes after the first entry, and whichever commands there are *)
  (forall dbg first rest info, ~ names_module dbg first ->
     is_module_loaded dbg (RrVal (RvArray (first :: rest))) info = Val (Err MCaptchaRedisModuleIsNotLoaded)) /\
  (** so a server with the module loaded second and all its commands is refused *)
  exists dbg first second info,
    names_module dbg second /\ Forall (command_there info) required_commands /\
    is_module_loaded dbg (RrVal (RvArray [first; second])) info = Val (Err MCaptchaRedisModuleIsNotLoaded).
Proof.
  split.
  - intros dbg first rest info Hn. unfold is_module_loaded. destruct first as [| | | | |s]; try done.
    destruct (existsb _ s) eqn:E; [|done]. destruct Hn. apply existsb_exists in E as (i & Hi & Hc).
    exists s, i. split; [done|]. split; [by apply elem_of_list_In|done].
  - exists (fun v => match v with RvBulk s => s | _ => EmptyString end).
    exists (RvArray [RvBulk "name"; RvBulk "search"]), (RvArray [RvBulk "name"; RvBulk "mcaptcha_cache"]).
    exists (fun _ => RrVal (RvArray [RvArray []])). split_and!.
    + exists [RvBulk "name"; RvBulk "mcaptcha_cache"], (RvBulk "mcaptcha_cache"). split; [done|].
      split; [by right; left|by vm_compute].
    + apply Forall_forall. intros c _. exists (RvArray [RvArray []]). split; [done|].
      intros l H. injection H as H. destruct l as [|? [|? ?]]; discriminate.
    + by vm_compute.
Qed.

Lemma c62_first_entry_checked : forall dbg first rest info,
  names_module dbg first ->
  (is_module_loaded dbg (RrVal (RvArray (first :: rest))) info = Val (Ok tt) <->
   Forall (command_there info) required_commands).
Proof.
  intros dbg first rest info (s & i & -> & Hi & Hc). rewrite <- check_ok. unfold is_module_loaded.
  assert (existsb (fun i => contains module_name (dbg i)) s = true) as ->; [|done].
  apply existsb_exists. exists i. split; [by apply elem_of_list_In|done].
Qed.

Lemma c62_all_commands : forall c,
  (c ∈ required_commands <-> c <> "SET"%string /\ c <> "DEL"%string /\
     exists args, client_sends (c :: args)).
Proof.
  intros c. split.
  - intros H. unfold required_commands in H. repeat (apply elem_of_cons in H as [-> | H]); [..|by apply elem_of_nil in H];
      (split; [done|split; [done|]]).
    + eexists. apply (CsVisitor "s").
    + eexists. apply (CsAdd "s" (MCaptcha 0 (Defense [] 0) 1)).
    + eexists. apply (CsDelete "s").
    + eexists. apply (CsExists "s").
    + eexists. apply (CsVisitors "s").
    + eexists. apply (CsChallenge "s" (AddChallenge 1 1 "t")).
    + eexists. apply (CsGet (VerifyCaptchaResult "t" "s")).
    + eexists. apply (CsDrop (VerifyCaptchaResult "t" "s")).
    + eexists. apply (CsRename "s" "t").
  - intros (H1 & H2 & args & H). inversion H; subst; try done; unfold required_commands;
      repeat (first [by left|right]).
Qed.

Lemma c63_redis_retrieve : forall w r,
  let m := VerifyCaptchaResult (w_string w) (w_key w) in
  ro_cmd (r_retrive_pow m) = ["MCAPTCHA_CACHE.GET_CHALLENGE"; w_key w; w_string w]%string /\
  ro_reply (r_retrive_pow m) r <> Val (Ok None) /\
  forall c, ro_reply (r_retrive_pow m) r = Val (Ok (Some c)) -> cc_key c = w_key w.
Proof.
  intros w r m. split; [done|]. unfold r_retrive_pow. cbn [ro_reply].
  destruct (ro_reply (r_get_challenge m) r) as [[v|e]|]; split; try done; by intros c [= <-].
Qed.

Lemma c63_memory_retrieve : forall p l s n w ip rnd cfg s' os,
  sy_clients s !! n = Some (VpStart w ip) ->
  hc_difficulty_map (sy_c s) !! w_string w = Some cfg -> cc_key cfg <> w_key w ->
  s_step p l s (SeAct n rnd) = Some (s', os) ->
  SoRet n (RVerifyPow (Err MCaptchaKeyValidationFail)) ∈ os /\
  hc_difficulty_map (sy_c s') !! w_string w = None.
Proof.
  intros p l s n w ip rnd cfg s' os Hn Hc Hk. unfold s_step. rewrite Hn. cbn [client_act].
  unfold s_cache_msg. cbn [hc_handle]. unfold retrive_pow_config, remove_pow_config. cbn [vr_token]. rewrite Hc.
  rewrite decide_False by congruence.
  destruct (qs_mgr (sy_q s)); try done; intros [= <- <-]; (split; [right; by left|]);
    cbn; apply lookup_delete.
Qed.

Lemma c68_registration_payload : forall p id m,
  reachable_mcaptcha p m -> u64 (m_duration m) ->
  exists payload, ro_cmd (r_add_mcaptcha id m) = ["MCAPTCHA_CACHE.ADD_CAPTCHA"; id; payload]%string /\
    exists c, from_str decode_create payload = Some c /\
    cm_levels c = d_levels (m_defense m) /\ cm_duration c = m_duration m /\
    exists d, snd (db_build (db_run (DBAdd <$> cm_levels c))) = Ok d /\
      mb_build (mb_run [MBDefense d; MBDuration (cm_duration c)]) =
        Ok (MCaptcha 0 (Defense (d_levels (m_defense m)) 0) (m_duration m)).
Proof.
  intros p id m Hr Hd. eexists. split; [done|]. exists (mcaptcha_into_create m).
  destruct (create_payload_spec p m Hr) as (H1 & H2 & _ & _ & H3). split; [|done].
  apply (survives_dec _ _ ok_create dec_create). destruct (reachable_ok p m Hr Hd) as (_ & [Hl _] & _).
  split; [by rewrite H1|by rewrite H2].
Qed.

Lemma c68_challenge_payload : forall m, ok_cache_pow m ->
  exists op payload, cache_action (HmCachePoW m) = AcCommand op true /\
    rc_cmd op = ["MCAPTCHA_CACHE.ADD_CHALLENGE"; cp_key m; payload]%string /\
    from_str decode_challenge payload = Some (AddChallenge (cp_difficulty_factor m) (cp_duration m) (cp_string m)).
Proof.
  intros m Hm. eexists _, _. split; [done|]. split; [done|].
  by apply (survives_dec _ _ ok_challenge dec_challenge).
Qed.
