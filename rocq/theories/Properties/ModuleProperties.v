(** Properties of deployments on a Redis whose module does what its commands say. *)
From Coq Require Import ZifyBool ZifyN ZifyNat Lia.
From Verif Require Import Model.Base Model.Defense Model.MCaptcha Model.HashCache Model.Json Model.Serde
  Model.Redis Model.RedisActor Model.Master Spec.DefenseSpec Spec.SerdeSpec Spec.MasterSpec Spec.ModuleSpec
  Proofs.JsonProofs Proofs.SerdeProofs Proofs.ModuleProofs.
From Verif Require Export Proofs.ModuleTheorems.

(** C90: every request is answered, and answered right. *)
Theorem C90_answers : forall h x,
  Forall (fun x => ok_ask (ex_ask x)) (x :: h) -> honest_module (x :: h) ->
  exists y, ex_answer x = Some (Val y) /\
    (forall e, ex_seen x = RrErr e -> failed_with e y) /\
    (forall v, ex_seen x = RrVal v -> right_answer (carried_out h) (ex_ask x) y).
Proof. exact c90_answers. Qed.
Print Assumptions C90_answers.

(** The module understands every request, and has what is asked for exactly when
    the caller asked for something that is there. *)
Theorem C90_served : forall h x,
  Forall (fun x => ok_ask (ex_ask x)) h ->
  exists w, ex_word x = Some w /\ (able (words h) w <-> asks_for (carried_out h) (ex_ask x)).
Proof. exact c90_served. Qed.
Print Assumptions C90_served.

Theorem C91_same_names : forall h id,
  let seen := omap to_master h in
  (forall m k, site_under h id = Some (m, k) -> exists n, bound seen id = Some n /\ configured seen n = Some m) /\
  (forall n, bound seen id = Some n -> exists m k, site_under h id = Some (m, k)).
Proof. exact c91_same_names. Qed.
Print Assumptions C91_same_names.

(** A site is registered, renamed and visited; its challenge is cached and looked
    up; another site takes its old name. *)
Definition shop (d u : N) : mcaptcha := MCaptcha 0 (Defense [Level 10 d] 0) u.

Definition ok_reply (a : rask) (v : rvalue) : exchange := Exchange a (RrVal v) None.

Definition told : rvalue := RvBulk (to_string encode_visit (AddVisitorResult 30 50)).

Definition ex_redis_day : list exchange := [
  ok_reply (AkExists "store") (RvInt 1);
  Exchange (AkRemove "store") (RrVal RvOkay) (Some "broken pipe"%string);
  ok_reply (AkExists "store") (RvInt 0);
  ok_reply (AkCount "store") (RvInt 1);
  ok_reply (AkRetrieve (VerifyCaptchaResult "phrase" "store")) told;
  ok_reply (AkCache (CachePoW "phrase" 50 30 "store")) RvOkay;
  ok_reply (AkVisit "store") told;
  ok_reply (AkAdd "shop" (shop 99 60)) RvOkay;
  Exchange (AkVisit "shop") (RrErr "ERR no such captcha") None;
  ok_reply (AkRename "shop" "store") (RvInt 1);
  ok_reply (AkAdd "shop" (shop 50 30)) RvOkay]%string.

Example C90_witness :
  Forall (fun x => ok_ask (ex_ask x)) ex_redis_day /\ honest_module ex_redis_day /\
  (ex_answer <$> take 5 ex_redis_day) = [Some (Val (RoBool (Ok false)));
    Some (Val (RoUnit (Err (RedisError "broken pipe"))));
    Some (Val (RoBool (Ok true))); Some (Val (RoNum (Ok 1)));
    Some (Val (RoPoW (Ok (Some (CachedPoWConfig "store" 50 30)))))] /\
  site_under (carried_out (drop 1 ex_redis_day)) "store" = None /\
  site_under (carried_out (drop 2 ex_redis_day)) "store" = Some (shop 50 30, 1%nat).
Proof.
  split; [|split; [|by vm_compute]].
  - repeat (apply Forall_cons; split; [try exact I|]); [..|apply Forall_nil_2].
    all: cbn [ex_ask ok_ask ok_reply]; unfold ok_mcaptcha, ok_cache_pow, ok_defense, u32, u64.
    all: repeat (split || apply Forall_cons_2 || apply Forall_nil_2). all: vm_compute; try split; try discriminate.
  - unfold ex_redis_day. repeat (apply honest_cons; [|cbn [ok_reply ex_reply ex_ask word_of honest]]); [exact I|..];
      intros v Hv; try discriminate Hv; try exact I; injection Hv as <-.
    + exists (create_of (shop 50 30)), 0%nat, (to_string encode_visit (AddVisitorResult 30 50)), (AddVisitorResult 30 50).
      split; [by vm_compute|]. split; [done|]. split; [by vm_compute|]. split; [done|]. by left.
    + exists (challenge_of (CachePoW "phrase" 50 30 "store")), (to_string encode_visit (AddVisitorResult 30 50)), (AddVisitorResult 30 50).
      split; [by vm_compute|]. split; [done|]. split; [by vm_compute|]. done.
    + exists (create_of (shop 50 30)), 1%nat, 1%Z. split; [by vm_compute|]. split; [done|lia].
    + by vm_compute.
    + by vm_compute.
Qed.

Example C91_witness :
  let h := carried_out (drop 2 ex_redis_day) in
  omap to_master h = [RqAddVisitor "store"; RqAddSite "shop" (shop 99 60); RqRename "shop" "store";
    RqAddSite "shop" (shop 50 30)] /\
  bound (omap to_master h) "store" = Some 0%nat /\ configured (omap to_master h) 0 = Some (shop 50 30) /\
  bound (omap to_master h) "shop" = Some 1%nat /\ site_under h "shop" = Some (shop 99 60, 0%nat).
Proof. by vm_compute. Qed.
