(** Properties of the actors in front of Redis. *)
From Coq Require Import Sorted.
From Coq Require Import ZifyBool ZifyN ZifyNat Lia.
From Verif Require Import Model.Base Model.Defense Model.MCaptcha Model.HashCache Model.Master Model.Json Model.Serde
  Model.Redis Model.RedisActor Model.RedisTokens Spec.RedisSpec Spec.RedisActorSpec Proofs.RedisProofs
  Proofs.RedisActorProofs.
From Verif Require Export Proofs.RedisActorTheorems.

(** C69: the Redis cache does not survive a caller that goes away. *)
Theorem C69_gone_caller_refuted : forall k s m r,
  idle s -> uses_redis m ->
  (** the request is sent without waiting for an answer: it is carried out, the
      reply arrives, and the cache is gone *)
  (exists s' o cmd, ra_run k s [ReSend (cache_action m) false; ReTake; ReReply r] = Some (s', o) /\
     o = [ObCommand (ra_next s) cmd; ObDied] /\ dead_for_good k s') /\
  (** or its sender gives up while Redis is being asked, and other clients' requests fail with it *)
  (forall others, exists s' o,
     ra_run k s ([ReSend (cache_action m) true; ReTake] ++ ((fun a => ReSend (cache_action a) true) <$> others) ++
                 [ReGone (ra_next s); ReReply r]) = Some (s', o) /\
     died o /\ r_failed o = seq (S (ra_next s)) (length others) /\ dead_for_good k s').
Proof. exact c69_gone_caller_refuted. Qed.
Print Assumptions C69_gone_caller_refuted.

(** With callers that wait, a connection of its own (or a cluster), and a server
    that sends no text that is no challenge where one is asked for and no error in
    reply to SET, it survives and every request is served. *)
Theorem C69_patient_callers : forall k es s o,
  Forall for_cache es -> Forall patient es -> replies sane_reply k es -> replies token_reply k es ->
  (k = Cluster \/ Forall alone es) ->
  ra_run k ra_init es = Some (s, o) ->
  ra_alive s = true /\ ~ died o /\ r_failed o = [].
Proof. exact c69_patient_callers. Qed.
Print Assumptions C69_patient_callers.

Example C69_witness :
  let m := HmVerifyCaptchaResult (VerifyCaptchaResult "tok" "site") in
  idle ra_init /\ uses_redis m /\
  (exists s o, ra_run Single ra_init [ReSend (cache_action m) true; ReTake; ReReply (RrVal (RvInt 1))] = Some (s, o) /\
     o = [ObCommand 0 ["DEL"; "mcaptcha:token:site:tok"]%string; ObAnswer 0 (RoBool (Ok true))]).
Proof. split; [by split_and!|]. split; [done|]. eexists _, _. split; by vm_compute. Qed.

Example C69_patient_witness :
  let es := [ReSend (cache_action (HmCacheResult (CacheResult "tok" "site" 30))) true;
             ReSend (cache_action (HmVerifyCaptchaResult (VerifyCaptchaResult "tok" "site"))) true; ReTake;
             ReReply (RrVal RvOkay); ReTake; ReReply (RrErr "gone")] in
  Forall for_cache es /\ Forall patient es /\ replies sane_reply Single es /\ replies token_reply Single es /\ Forall alone es /\
  exists s o, ra_run Single ra_init es = Some (s, o) /\
    o = [ObCommand 0 ["SET"; "mcaptcha:token:site:tok"; "site"; "EX"; "30"]%string; ObAnswer 0 (RoUnit (Ok tt));
         ObCommand 1 ["DEL"; "mcaptcha:token:site:tok"]%string; ObAnswer 1 (RoBool (Err (RedisError "gone")))].
Proof.
  split; [|split; [|split; [|split; [|split]]]].
  - repeat (apply Forall_cons; split; [first [exact I|eexists; reflexivity]|]). done.
  - repeat (apply Forall_cons; split); cbn; done.
  - intros b r a s o cmd E R L.
    assert (Hl : match ra_run Single ra_init b with Some (_, o) => last_command o | None => None end = Some cmd) by by rewrite R.
    clear R L. repeat (destruct b as [|? b]; [try discriminate|injection E as <- E]); try (by destruct b); injection E as <- <-;
      vm_compute in Hl; injection Hl as <-; cbn; intros [H|H]; discriminate.
  - intros b r a s o cmd E R L.
    assert (Hl : match ra_run Single ra_init b with Some (_, o) => last_command o | None => None end = Some cmd) by by rewrite R.
    clear R L. repeat (destruct b as [|? b]; [try discriminate|injection E as <- E]); try (by destruct b); injection E as <- <-;
      vm_compute in Hl; injection Hl as <-; cbn; intros H; discriminate.
  - repeat (apply Forall_cons; split); cbn; done.
  - eexists _, _. split; by vm_compute.
Qed.

(** C70: the Redis Master survives callers that go away. *)
Theorem C70_master_survives : forall k es s o,
  Forall for_master es -> Forall no_internal_data es -> replies sane_reply k es ->
  (k = Cluster \/ Forall alone es) ->
  ra_run k ra_init es = Some (s, o) ->
  ra_alive s = true /\ ~ died o /\ r_failed o = [].
Proof. exact c70_master_survives. Qed.
Print Assumptions C70_master_survives.

(** The history: two requests, one sent without waiting and one whose sender
    leaves; Redis answers the first with an error and the second with OK. *)
Example C70_witness :
  let es := [ReSend (AcCommand (lift RoVisit (r_add_visitor "s")) false) true;
             ReSend (AcCommand (lift RoUnit (r_delete_captcha "s")) false) false; ReTake; ReGone 0;
             ReReply (RrErr "gone"); ReTake; ReReply (RrVal RvOkay)] in
  Forall for_master es /\ Forall no_internal_data es /\ replies sane_reply Single es /\ Forall alone es /\
  exists s o, ra_run Single ra_init es = Some (s, o) /\
    o = [ObCommand 0 ["MCAPTCHA_CACHE.ADD_VISITOR"; "s"]%string; ObLeft 0;
         ObCommand 1 ["MCAPTCHA_CACHE.DELETE_CAPTCHA"; "s"]%string].
Proof.
  split; [|split; [|split; [|split]]].
  - repeat (apply Forall_cons; split); cbn; try done; [by exists (RqAddVisitor "s")|by exists (RqRemove "s")].
  - repeat (apply Forall_cons; split); cbn; done.
  - intros b r a s o cmd E R L.
    assert (Hl : match ra_run Single ra_init b with Some (_, o) => last_command o | None => None end = Some cmd) by by rewrite R.
    clear R L. repeat (destruct b as [|? b]; [try discriminate|injection E as <- E]); try (by destruct b); injection E as <- <-;
      vm_compute in Hl; injection Hl as <-; cbn; [done|]. intros [H|H]; discriminate.
  - repeat (apply Forall_cons; split); cbn; done.
  - eexists _, _. split; by vm_compute.
Qed.

(** C71: the dump of a Redis Master cannot be taken nor restored: asking for it
    kills the Master and fails whatever was waiting. *)
Theorem C71_internal_data_refuted : forall k s m (w : bool) q,
  m = RqGetData \/ (exists d, m = RqSetData d) ->
  exists a, master_action m = Some a /\
  (** [q]: requests that arrived before it is taken *)
  (idle s -> exists s' o,
     ra_run k s (ReSend a w :: ((fun x => ReSend x true) <$> q) ++ [ReTake]) = Some (s', o) /\
     died o /\ r_answered o = [] /\
     r_failed o = (if w then [ra_next s] else []) ++ seq (S (ra_next s)) (length q) /\ dead_for_good k s').
Proof. exact c71_internal_data_refuted. Qed.
Print Assumptions C71_internal_data_refuted.

Example C71_witness :
  idle ra_init /\ exists s o,
    ra_run Single ra_init [ReSend AcPanic true; ReSend (AcCommand (lift RoVisit (r_add_visitor "s")) false) true; ReTake]
      = Some (s, o) /\ o = [ObDied; ObFail 0; ObFail 1].
Proof. split; [by split_and!|]. eexists _, _. split; by vm_compute. Qed.

(** C72: no request is lost, none is settled twice, and answers come in the order
    of the requests. *)
Theorem C72_settled_once_in_order : forall k es s o,
  ra_run k ra_init es = Some (s, o) ->
  asked_from 0 es ≡ₚ waiting s ++ r_answered o ++ r_failed o ++ r_left o /\
  NoDup (waiting s ++ r_answered o ++ r_failed o ++ r_left o) /\
  StronglySorted lt (r_answered o).
Proof. exact c72_settled_once_in_order. Qed.
Print Assumptions C72_settled_once_in_order.

Example C72_witness :
  let v := AcCommand (lift RoUnit (r_delete_captcha "s")) false in
  exists s o, ra_run Single ra_init [ReSend v true; ReSend v true; ReSend v true; ReSend v true; ReTake;
      ReReply (RrVal RvOkay); ReGone 1; ReTake; ReReply (RrErr "x")] = Some (s, o) /\
    waiting s = [3]%nat /\ r_answered o = [0; 2]%nat /\ r_failed o = [] /\ r_left o = [1]%nat.
Proof. eexists _, _. split_and!; by vm_compute. Qed.

(** C73: a single connection cannot be used by two holders at a time. *)
Theorem C73_shared_connection_refuted :
  (** a holder's command is in flight: the actor's next one kills the actor *)
  (forall s u op op' st w, idle s ->
     exists s' o, ra_run Single s [ReUser u op; ReSend (AcCommand op' st) w; ReTake] = Some (s', o) /\
       died o /\ r_failed o = (if w then [ra_next s] else []) /\ dead_for_good Single s') /\
  (** the actor's command is in flight: the holder panics *)
  (forall s u op op' st w, idle s ->
     exists s' o, ra_run Single s [ReSend (AcCommand op' st) w; ReTake; ReUser u op] = Some (s', o) /\ ObUserPanic u ∈ o) /\
  (** two holders: the second one panics *)
  (forall s u u' op op', idle s -> u <> u' ->
     exists s' o, ra_run Single s [ReUser u op; ReUser u' op'] = Some (s', o) /\ ObUserPanic u' ∈ o).
Proof. exact c73_shared_connection_refuted. Qed.
Print Assumptions C73_shared_connection_refuted.

(** On a cluster connection nobody panics because of others: a holder only over
    what its own command makes of the reply. *)
Theorem C73_cluster : forall s e s' o u,
  ra_step Cluster s e = Some (s', o) -> ObUserPanic u ∈ o ->
  exists r op, e = ReUserReply u r /\ ra_users s !! u = Some op /\ rc_answer op r = Panic.
Proof. exact c73_cluster. Qed.
Print Assumptions C73_cluster.

Theorem C73_only_overlap : forall k es s o e s' o',
  ra_run k ra_init es = Some (s, o) -> ra_step k s e = Some (s', o') ->
  (exists u op, e = ReUser u op /\ ObUserPanic u ∈ o') \/ (e = ReTake /\ died o' /\ Forall no_internal_data es) ->
  k = Single /\ (actor_in_flight k es \/ exists u, user_in_flight k es u).
Proof. exact c73_only_overlap. Qed.
Print Assumptions C73_only_overlap.

Example C73_witness :
  idle ra_init /\ exists s o,
    ra_run Single ra_init [ReUser 7 (lift RoUnit (r_delete_captcha "s"));
      ReSend (AcCommand (lift RoVisit (r_add_visitor "s")) false) true; ReTake] = Some (s, o) /\
    o = [ObUserCommand 7 ["MCAPTCHA_CACHE.DELETE_CAPTCHA"; "s"]%string; ObDied; ObFail 0].
Proof. split; [by split_and!|]. eexists _, _. split; by vm_compute. Qed.

(** C74: not every duration a site can be built with can be stored in Redis. *)
Theorem C74_duration_refuted :
  (** what Redis does with a token decides: outside the range it takes, the cache dies *)
  (forall k s server now token key dur, idle s ->
     let m := CacheResult token key dur in
     exists cmd server' reply s' o, serve now server cmd = Some (server', reply) /\
       ra_run k s [ReSend (cache_action (HmCacheResult m)) true; ReTake; ReReply reply] = Some (s', o) /\
       ObCommand (ra_next s) cmd ∈ o /\
       (storable now dur -> o = [ObCommand (ra_next s) cmd; ObAnswer (ra_next s) (RoUnit (Ok tt))] /\ ra_alive s' = true) /\
       (~ storable now dur -> o = [ObCommand (ra_next s) cmd; ObDied; ObFail (ra_next s)] /\ server' = server /\ dead_for_good k s')) /\
  (** and the builders accept such durations *)
  (forall d now dur, ~ storable now dur -> 0 < dur ->
     mb_build (mb_run [MBDefense d; MBDuration dur]) = Ok (MCaptcha 0 d dur)).
Proof. exact c74_duration_refuted. Qed.
Print Assumptions C74_duration_refuted.

Example C74_witness :
  ~ storable 0 9223372036854776 /\ storable 1700000000000 30 /\
  mb_build (mb_run [MBDefense (Defense [Level 50 500] 0); MBDuration 9223372036854776]) =
    Ok (MCaptcha 0 (Defense [Level 50 500] 0) 9223372036854776).
Proof. split_and!; [unfold storable; lia|unfold storable; lia|by vm_compute]. Qed.
