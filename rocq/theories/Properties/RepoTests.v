(** The repository's own unit tests and its example program, replayed on the
    model. These are tests of the model, not proofs: each assertion of the
    source file's test module is an equation checked by evaluation. Where
    a test sleeps, time passes and every timer that is due fires, oldest first.
    Left out: the tests that need a Redis server with the module loaded, except for
    the token operations, and those whose outcome is only that nothing
    panics on another thread. *)
From Verif Require Import Model.Base Model.Defense Model.MCaptcha Model.Counter Model.HashCache Model.Builders
  Model.Queue Model.Pow Model.System Model.Redis Model.RedisActor Model.RedisTokens Model.Master.

Definition unwrap {A} (d : A) (r : result A) : A := match r with Ok a => a | Err _ => d end.
Definition is_ok {A} (r : result A) : bool := match r with Ok _ => true | Err _ => false end.

(** ** src/defense.rs:226-481 *)
Definition t_level (v d : N) : result level := lb_build (lb_run [LBThreshold v; LBFactor d]).
Definition t_add (b : defense_builder) (l : result level) : defense_builder :=
  match l with Ok l => fst (db_add_level b l) | Err _ => b end.
(** 230-257 [level_builder_works]. *)
Example level_builder_works :
  lb_build (lb_run [LBFactor 1; LBThreshold 0]) = Ok (Level 0 1) /\
  snd (lb_set_difficulty_factor lb_default 0) = Err DifficultyFactorZero /\
  lb_build (lb_run [LBFactor 1]) = Err SetVisitorThreshold /\
  lb_build (lb_run [LBThreshold 10]) = Err SetDifficultyFactor.
Proof. done. Qed.
(** 260-281 [defense_builder_duplicate_visitor_threshold]. *)
Example defense_builder_duplicate_visitor_threshold :
  match t_level 50 50 with
  | Ok l => let '(b, r) := db_add_level db_default l in r = Ok tt /\ snd (db_add_level b l) = Err DuplicateVisitorCount
  | Err _ => False
  end.
Proof. done. Qed.
(** 284-307 [defense_builder_decreasing_difficulty_factor]. *)
Example defense_builder_decreasing_difficulty_factor :
  snd (db_build (t_add (t_add db_default (t_level 50 50)) (t_level 500 10))) = Err DecreaseingDifficultyFactor.
Proof. done. Qed.
Definition t_defense (ls : list (N * N)) : defense :=
  unwrap (Defense [] 0) (snd (db_build (fold_left (fun b l => t_add b (t_level (fst l) (snd l))) ls db_default))).
Definition tighten_times (p : profile) (n : N) (d : defense) : outcome defense :=
  N.iter n (fun o => olet d := o in tighten_up p d) (Val d).
(** 310-361 [checking_for_integer_overflow]. *)
Example checking_for_integer_overflow : forall p,
  (olet d := tighten_times p 500 (t_defense [(5, 5); (10, 50); (20, 60); (30, 65)]) in
   olet _ := get_difficulty d in
   olet d := tighten_times p 500000 d in
   get_difficulty d) = Val 65.
Proof. by intros []; vm_compute. Qed.
(** 363-412 [get_defense]. *)
Definition t_five : defense := t_defense [(50, 50); (500, 5000); (5000, 50000); (50000, 500000); (500000, 5000000)].
(** 414-422 [defense_builder_works]. *)
Example defense_builder_works : difficulty_factor <$> d_levels t_five = [50; 5000; 50000; 500000; 5000000].
Proof. done. Qed.
Definition difficulties (p : profile) (d : defense) (cs : list d_call) : list (outcome N) :=
  (fun k => olet d := d_run p d (take k cs) in get_difficulty d) <$> seq 0 (S (length cs)).
(** 424-444 [tighten_up_works]. *)
Example tighten_up_works : forall p,
  difficulties p t_five (replicate 5 DTighten) = Val <$> [50; 5000; 50000; 500000; 5000000; 5000000].
Proof. by intros []; vm_compute. Qed.
(** 446-451 [max_defense_works]. *)
Example max_defense_works : forall p, (olet d := d_run p t_five [DMax] in get_difficulty d) = Val 5000000.
Proof. by intros []; vm_compute. Qed.
(** 453-458 [minimum_defense_works]. *)
Example minimum_defense_works : forall p, (olet d := d_run p t_five [DMin] in get_difficulty d) = Val 50.
Proof. by intros []; vm_compute. Qed.
(** 460-481 [loosen_up_works]. *)
Example loosen_up_works : forall p,
  difficulties p t_five (DMax :: replicate 5 DLoosen) = Val <$> [50; 5000000; 500000; 50000; 5000; 50; 50].
Proof. by intros []; vm_compute. Qed.

(** ** src/master/embedded/counter.rs:221-391 *)
(** 229-277: the test constants, [get_defense], [get_mcaptcha]. *)
Definition t_two : defense := t_defense [(50, 50); (500, 500)].
Definition t_mcaptcha : mcaptcha :=
  unwrap (MCaptcha 0 t_two 0) (mb_build (mb_run [MBDefense t_two; MBDuration 5])).
(** 279-288 [mcaptcha_decrement_by_works]. *)
Example mcaptcha_decrement_by_works : forall p,
  (olet m := MCaptcha.m_run p t_mcaptcha (replicate 100 MAdd ++ [MDec 50]) in Val (m_get_visitors m)) = Val 50 /\
  (olet m := MCaptcha.m_run p t_mcaptcha (replicate 100 MAdd ++ [MDec 50; MDec 500]) in Val (m_get_visitors m)) = Val 0.
Proof. by intros []; vm_compute. Qed.
Definition t_counter : counter_sys := CounterSys 0 (counter_start t_mcaptcha).
Definition last_reply {A} (x : option (A * list (option counter_reply))) : option counter_reply :=
  match x with Some (_, os) => match last os with Some o => o | None => None end | None => None end.
(** 261-265 [race]. *)
Definition race (n : nat) : list counter_event := replicate (n - 1) (CeMsg CmAddVisitor).
(** 292-301 [counter_defense_tightenup_works]. *)
Example counter_defense_tightenup_works : forall p,
  last_reply (counter_run p t_counter [CeMsg CmAddVisitor]) = Some (CrAdded (AddVisitorResult 5 50)) /\
  last_reply (counter_run p t_counter (CeMsg CmAddVisitor :: race 500 ++ [CeMsg CmAddVisitor])) =
    Some (CrAdded (AddVisitorResult 5 500)).
Proof. by intros []; vm_compute. Qed.
(** 304-320 [counter_defense_loosenup_works]. *)
Example counter_defense_loosenup_works : forall p,
  last_reply (counter_run p t_counter (race 500 ++ race 500 ++ [CeMsg CmAddVisitor])) =
    Some (CrAdded (AddVisitorResult 5 500)) /\
  last_reply (counter_run p t_counter (race 500 ++ race 500 ++ [CeMsg CmAddVisitor; CeTick (5 * NS)] ++
      (CeFire <$> seq 0 999) ++ [CeMsg CmAddVisitor])) =
    Some (CrAdded (AddVisitorResult 5 50)).
Proof. by intros []; vm_compute. Qed.
(** 323-343 [test_mcatcptha_builder]. *)
Example test_mcatcptha_builder :
  mb_build (mb_run [MBDuration 0; MBDefense t_two]) = Err CaptchaDurationZero /\
  mb_build (mb_run [MBDuration 30]) = Err (PleaseSetValue "defense") /\
  mb_build (mb_run [MBDefense t_two]) = Err (PleaseSetValue "duration").
Proof. done. Qed.
(** 346-356 [get_current_visitor_count_works]. *)
Example get_current_visitor_count_works : forall p,
  last_reply (counter_run p t_counter (replicate 4 (CeMsg CmAddVisitor) ++ [CeMsg CmGetCurrentVisitorCount])) = Some (CrCount 4).
Proof. by intros []; vm_compute. Qed.
(** 360-364 [stop_works]: the second [unwrap] panics. *)
Example stop_works : forall p,
  snd <$> counter_run p t_counter [CeMsg CmStop; CeMsg CmAddVisitor] = Some [Some CrUnit; Some CrMailboxError].
Proof. by intros []; vm_compute. Qed.
(** 367-380 [get_set_internal_data_works]. *)
Example get_set_internal_data_works : forall p,
  last_reply (counter_run p t_counter [CeMsg CmGetInternalData]) = Some (CrData t_mcaptcha) /\
  exists m, add_visitor p t_mcaptcha = Val m /\
  last_reply (counter_run p t_counter [CeMsg (CmSetInternalData m); CeMsg CmGetInternalData]) = Some (CrData m) /\
  last_reply (counter_run p t_counter [CeMsg (CmSetInternalData m); CeTick (8 * NS); CeFire 0;
    CeMsg CmGetCurrentVisitorCount]) = Some (CrCount 0).
Proof. intros []; (split; [by vm_compute|]); eexists; (split; [by vm_compute|]); by vm_compute. Qed.
(** 383-390 [bulk_delete_works]; BulkDecrement is a private message. *)
Example bulk_delete_works : forall p,
  (exists s os, counter_run p t_counter [CeMsg CmAddVisitor; CeMsg CmAddVisitor; CeMsg CmGetCurrentVisitorCount] =
    Some (s, os) /\ last os = Some (Some (CrCount 2)) /\
    m_get_visitors (handle_expiry (ct_data (cs_counter s)) (BulkDecrement 3)) = 0).
Proof. intros []; (eexists _, _; split; [by vm_compute|]; by vm_compute). Qed.

(** ** src/master/embedded/master.rs:294-374 *)
(** The scheduler of these tests: the lowest task that can move, else the first
    timer that is due. *)
Definition pick {A B} (f : A -> option B) (l : list A) : option B :=
  fold_left (fun o a => match o with Some _ => o | None => f a end) l None.
Definition m_auto_step (p : profile) (s : msys) : option (msys * list mout) :=
  match pick (fun t => m_step p s (MeTask t)) (seq 0 (my_next s)) with
  | Some x => Some x
  | None =>
      pick (fun cx => pick (fun id => m_step p s (MeFire (fst cx) id)) (fst <$> ct_timers (snd cx)))
        (imap (fun i x => (i, x)) (my_ctrs s))
  end.
Fixpoint m_settle (p : profile) (fuel : nat) (s : msys) : msys * list mout :=
  match fuel with
  | O => (s, [])
  | S f =>
      match m_auto_step p s with
      | Some (s1, o) => let '(s2, os) := m_settle p f s1 in (s2, o ++ os)
      | None => (s, [])
      end
  end.
(** [send(..).await], and [sleep], second by second. *)
Definition m_send (p : profile) (s : msys) (r : mreq) : msys * option mreply :=
  match m_step p s (MeReq r) with
  | Some (s1, o) =>
      let '(s2, os) := m_settle p 100 s1 in
      (s2, pick (fun x => match x with MoReply k y => if decide (k = my_reqs s) then Some y else None | _ => None end)
             (o ++ os))
  | None => (s, None)
  end.
Definition m_second (p : profile) (s : msys) : msys :=
  match m_step p s (MeTick NS) with Some (s1, _) => fst (m_settle p 100 s1) | None => s end.
Definition m_sleep (p : profile) (secs : nat) (s : msys) : msys := Nat.iter secs (m_second p) s.
Definition t_dump (x : option mreply) (id : string) : option mcaptcha :=
  match x with Some (MrData d) => d !! id | _ => None end.
(** 303-373 [master_actor_works]. *)
Definition master_test (p : profile) : option (list bool) :=
  let s0 := fst (m_settle p 100 (m_start 0 1)) in
  match ab_build (ab_run [AbId "yo"; AbMcaptcha t_mcaptcha]),
        nb_build (nb_run [NbName "yo"; NbRenameTo "yoyo"]) with
  | Built (id, m), Built (a, b) =>
      let '(s1, r1) := m_send p s0 (RqAddSite id m) in
      let '(s2, r2) := m_send p s1 (RqGetSite "yo") in
      let '(s3, r3) := m_send p s2 RqGetData in
      match t_dump r3 "yo" with
      | Some m =>
          match MCaptcha.m_run p m [MAdd; MAdd; MAdd] with
          | Val m3 =>
              let '(s4, r4) := m_send p s3 (RqSetData {["yo"%string := m3]}) in
              let '(s5, r5) := m_send p s4 RqGetData in
              let '(s6, r6) := m_send p s5 (RqRename a b) in
              let '(s7, r7) := m_send p s6 (RqGetSite "yoyo") in
              let '(s8, r8) := m_send p s7 (RqGetSite "a") in
              let s9 := m_sleep p 5 (m_sleep p 5 s8) in
              let '(s10, r10) := m_send p s9 (RqGetSite "yoyo") in
              let '(s11, r11) := m_send p s10 (RqRemove "yoyo") in
              Some [match r1 with Some (MrUnit (Ok _)) => true | _ => false end;
                    match r2 with Some (MrSite (Some _)) => true | _ => false end;
                    match r4 with Some (MrUnit (Ok _)) => true | _ => false end;
                    bool_decide (m_get_visitors <$> t_dump r5 "yo" = Some (m_get_visitors m3));
                    bool_decide (m_get_visitors m3 = 3);
                    match r6 with Some (MrUnit (Ok _)) => true | _ => false end;
                    match r7 with Some (MrSite (Some _)) => true | _ => false end;
                    match r8 with Some (MrSite None) => true | _ => false end;
                    match r10 with Some (MrSite None) => true | _ => false end;
                    match r11 with Some (MrUnit _) => true | _ => false end]
          | Panic => None
          end
      | None => None
      end
  | _, _ => None
  end.
Example master_actor_works : forall p, master_test p = Some (replicate 10 true).
Proof. by intros []; vm_compute. Qed.

(** ** src/cache/hashcache.rs:190-311 *)
(** 210-260 [hashcache_pow_cache_works]; the challenge is taken out by the first
    retrieval. *)
Example hashcache_pow_cache_works :
  exists m, pb_build (pb_run [PbString "string"; PbDifficulty 54; PbDuration 5; PbKey "mcaptchakey"]) = Built m /\
  exists s, cache_run (cache_start 0)
    [HeMsg (HmCachePoW m); HeMsg (HmRetrivePoW (VerifyCaptchaResult "string" "mcaptchakey")); HeTick (10 * NS);
     HeExpire (5 * NS) (DeletePoW "string"); HeMsg (HmRetrivePoW (VerifyCaptchaResult "string" "mcaptchakey"))] =
    Some (s, [Some (HrUnit (Ok tt)); Some (HrPoW (Ok (Some (CachedPoWConfig "mcaptchakey" 54 5)))); None; None;
              Some (HrPoW (Ok None))]).
Proof. eexists. split; [done|]. eexists. by vm_compute. Qed.
(** 263-310 [hashcache_result_cache_works]. *)
Example hashcache_result_cache_works :
  exists s, cache_run (cache_start 0)
    [HeMsg (HmCacheResult (CacheResult "b" "a" 5)); HeMsg (HmVerifyCaptchaResult (VerifyCaptchaResult "b" "a"));
     HeMsg (HmVerifyCaptchaResult (VerifyCaptchaResult "b" "a")); HeMsg (HmVerifyCaptchaResult (VerifyCaptchaResult "b" "cz"));
     HeTick (10 * NS); HeExpire (5 * NS) (DeleteCaptchaResult "b");
     HeMsg (HmVerifyCaptchaResult (VerifyCaptchaResult "b" "a"))] =
    Some (s, [Some (HrUnit (Ok tt)); Some (HrBool (Ok true)); Some (HrBool (Ok false)); Some (HrBool (Ok false)); None; None;
              Some (HrBool (Ok false))]).
Proof. eexists. by vm_compute. Qed.

(** ** src/queue.rs:239-318 *)
(** 267-290 [manager_works]: three runners, two jobs of one address; then the
    queue is dropped. *)
Example manager_works : forall p, exists s os,
  q_run p (q_start 3 10)
    [QeAdd "foo bar"; QeManager; QeAdd "foo bar"; QeManager; QeRecv 0; QeFinish 0; QeManager; QeRecv 0; QeFinish 0; QeManager;
     QeDrop; QeManager; QeRecv 0; QeRecv 1; QeRecv 2; QeJoin] = Some (s, os) /\
  QAnswer 0 "foo bar" (Ok tt) ∈ os /\ QAnswer 1 "foo bar" (Ok tt) ∈ os /\ QFinish 0 0 ∈ os /\ QFinish 0 1 ∈ os /\
  qs_mgr s = MDone.
Proof.
  intros []; (eexists _, _; split; [by vm_compute|]);
    repeat (split; [repeat (apply elem_of_list_here || apply elem_of_list_further)|]); done.
Qed.

(** ** src/system.rs:203-332 and examples/simple.rs *)
(** 216-244 [boostrap_system], [get_config]: the site is registered; two runners.
    The library here calls a proof sufficient if its nonce is not below the
    difficulty and valid if its result names the challenge. *)
Definition t_lib : pow_lib :=
  PowLib "myrandomsaltisnotlongenoug" (fun w d => Val (d <=? pw_nonce w))
    (fun w x => Val (String.eqb (pw_result w) ("proof of " ++ x))).
Definition prove_work (x : string) (d : N) (key : string) : work := Work x ("proof of " ++ x) d key.
Definition t_site : string := "batsense.net".
Definition t_boot : list sevent := [SeMaster (MeTask 0); SeMaster (MeTask 1); SeMaster (MeReq (RqAddSite t_site t_mcaptcha))].
Definition t_get (n t : nat) (x : string) : list sevent :=
  [SeCall (CGetPow t_site); SeAct n ""; SeMaster (MeTask t); SeAct n x; SeAct n ""; SeAct n ""].
Definition t_verify (n : nat) (w : work) (es : list sevent) : list sevent := [SeCall (CVerifyPow w "1"); SeAct n ""] ++ es.
(** The dispatcher, a runner and the client in turn. *)
Definition t_checked (n r : nat) (tok : string) : list sevent :=
  [SeAct n ""; SeManager; SeRecv r; SeAct n ""; SeSend r; SeAct n tok; SeEnd r; SeManager; SeAct n ""; SeAct n ""].
Definition t_refused (n r : nat) : list sevent :=
  [SeAct n ""; SeManager; SeRecv r; SeAct n ""; SeSend r; SeAct n ""].
Definition t_validate (n : nat) (tok : string) : list sevent :=
  [SeCall (CValidate (VerifyCaptchaResult tok t_site)); SeAct n ""; SeAct n ""].
Definition rets (x : option (ssys * list sout)) : option (list (nat * ret)) :=
  match x with
  | Some (_, tr) => Some (omap (fun o => match o with SoRet n r => Some (n, r) | _ => None end) tr)
  | None => None
  end.
Definition t_pow (x : string) (d : N) : pow_config := PoWConfig x d "myrandomsaltisnotlongenoug".
(** 247-251 [get_pow_works]. *)
Example get_pow_works : forall p,
  rets (s_run p t_lib (sys_start 0 10 2 2000) (t_boot ++ t_get 0 2 "x")) = Some [(0%nat, RGetPow (Ok (Some (t_pow "x" 50))))].
Proof. by intros []; vm_compute. Qed.
(** 254-331 [verify_pow_works]. *)
Example verify_pow_works : forall p,
  rets (s_run p t_lib (sys_start 0 10 2 2000)
    (t_boot ++ t_get 0 2 "x" ++ t_verify 1 (prove_work "x" 50 t_site) (t_checked 1 0 "tok") ++ t_validate 2 "tok" ++
     t_validate 3 t_site ++ t_verify 4 (prove_work "wrongstring" 50 t_site) [] ++
     t_get 5 3 "y" ++ t_verify 6 (prove_work "y" 1 t_site) (t_refused 6 0) ++
     t_get 7 4 "z" ++ t_verify 8 (prove_work "z" 50 "example.com") [])) =
  Some [(0%nat, RGetPow (Ok (Some (t_pow "x" 50)))); (1%nat, RVerifyPow (Ok ("tok"%string, 50)));
        (2%nat, RValidate (Ok true)); (3%nat, RValidate (Ok false)); (4%nat, RVerifyPow (Err StringNotFound));
        (5%nat, RGetPow (Ok (Some (t_pow "y" 50)))); (6%nat, RVerifyPow (Err InsuffiencientDifficulty));
        (7%nat, RGetPow (Ok (Some (t_pow "z" 50)))); (8%nat, RVerifyPow (Err MCaptchaKeyValidationFail))].
Proof. by intros []; vm_compute. Qed.
(** examples/simple.rs: [main]. *)
Definition t_simple : mcaptcha :=
  unwrap (MCaptcha 0 t_two 0) (mb_build (mb_run [MBDefense (t_defense [(50, 500); (5000, 50000)]); MBDuration 30])).
Example simple_main : forall p,
  rets (s_run p t_lib (sys_start 0 60 4 2000)
    ([SeMaster (MeTask 0); SeMaster (MeTask 1); SeMaster (MeReq (RqAddSite t_site t_simple))] ++
     t_get 0 2 "x" ++ t_verify 1 (prove_work "x" 500 t_site) (t_checked 1 0 "tok") ++ t_validate 2 "tok")) =
  Some [(0%nat, RGetPow (Ok (Some (t_pow "x" 500)))); (1%nat, RVerifyPow (Ok ("tok"%string, 500)));
        (2%nat, RValidate (Ok true))].
Proof. by intros []; vm_compute. Qed.

(** ** src/redis/mcaptcha_redis.rs:333-353: the tokens of [redis_master_works] *)
Definition t_token (c : token_call) : token_event := TokenEvent 0 c Answered.
Example redis_master_works_tokens :
  let name := "REDIS_CAPTCHA_TEST"%string in
  let chal := "randomchallengestring"%string in
  snd (token_run ∅
    [t_token (TkAdd (CacheResult chal name 10)); t_token (TkGet (VerifyCaptchaResult name name));
     t_token (TkGet (VerifyCaptchaResult chal name)); t_token (TkAdd (CacheResult chal name 10));
     t_token (TkDel (VerifyCaptchaResult chal name))]) =
  [Val (RoUnit (Ok tt)); Val (RoBool (Ok false)); Val (RoBool (Ok true)); Val (RoUnit (Ok tt)); Val (RoUnit (Ok tt))].
Proof. by vm_compute. Qed.
(** ** src/cache/redis.rs:226-282 [redishashcache_result_cache_works] *)
Example redishashcache_result_cache_works :
  snd (token_run ∅
    [t_token (TkAdd (CacheResult "b" "a" 5)); t_token (TkGet (VerifyCaptchaResult "b" "a"));
     t_token (TkGet (VerifyCaptchaResult "b" "a")); t_token (TkGet (VerifyCaptchaResult "b" "cz"));
     TokenEvent 10000 (TkGet (VerifyCaptchaResult "b" "a")) Answered]) =
  [Val (RoUnit (Ok tt)); Val (RoBool (Ok true)); Val (RoBool (Ok false)); Val (RoBool (Ok false)); Val (RoBool (Ok false))].
Proof. by vm_compute. Qed.
