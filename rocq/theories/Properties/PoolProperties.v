(** Several Systems on one in-memory cache (C118). *)
From Coq Require Import ZifyBool ZifyN ZifyNat Lia.
From Verif Require Import Model.Base Model.MCaptcha Model.HashCache Model.Pow Model.System Model.SystemProgram
  Model.SystemPool Spec.CacheSpec Spec.ProgramSpec Spec.PoolSpec
  Proofs.CacheProofs Proofs.ProgramProofs Proofs.SharedProofs Proofs.SystemHistory Proofs.PoolProofs Properties.CacheProperties.
From Verif Require Export Proofs.PoolTheorems.

(** ** C118: Systems that share an in-memory cache *)
(** Whatever a token check says, the cache said so. *)
Theorem C118_check_behind_pass : forall ls t es s tr n b,
  pl_run ls (po_init t) es = Some (s, tr) -> LoRet n (RValidate (Ok b)) ∈ tr ->
  exists i m, LoCall n i (CValidate m) ∈ tr /\ LoDid n (PeVerify m (An (Ok b))) ∈ tr.
Proof. exact c118_check_behind_pass. Qed.
Print Assumptions C118_check_behind_pass.

(** A pass on any System was earned on some System: there, verify_pow stored the
    token for the site, after work that the System's own PoW configuration accepts;
    the token was not touched since, and is not overdue. *)
Theorem C118_earned : forall ls t es s tr tr1 n m tr2,
  pl_run ls (po_init t) es = Some (s, tr) ->
  tr = tr1 ++ LoDid n (PeVerify m (An (Ok true))) :: tr2 -> no_forging tr1 ->
  exists tra o n' cfg trb i w ip,
    tr1 = tra ++ o :: trb /\ pl_stores o = Some (n', CacheResult (vr_token m) (vr_key m) (cc_duration cfg)) /\
    LoCall n' i (CVerifyPow w ip) ∈ tra /\ w_key w = vr_key m /\ cc_key cfg = vr_key m /\
    LoDid n' (PeRetrieve (VerifyCaptchaResult (w_string w) (w_key w)) (An (Ok (Some cfg)))) ∈ tra /\
    passes (ls i) (checked_work w cfg) /\
    Forall (fun e => about_token (vr_token m) e = None) (pool_cache trb).*1 /\
    (expiries_done t tr1 -> pool_clock t tr1 < pool_clock t tra + cc_duration cfg * NS).
Proof. exact c118_earned. Qed.
Print Assumptions C118_earned.

(** What is asked of a visitor on any System is what get_pow issued on some System,
    and that is what the master told it then. *)
Theorem C118_challenge : forall ls t es s tr tr1 n m c tr2,
  pl_run ls (po_init t) es = Some (s, tr) ->
  tr = tr1 ++ LoDid n (PeRetrieve m (An (Ok (Some c)))) :: tr2 -> no_forging tr1 ->
  exists tra o n' trb i,
    tr1 = tra ++ o :: trb /\
    pl_issues o = Some (n', CachePoW (vr_token m) (cc_difficulty_factor c) (cc_duration c) (cc_key c)) /\
    LoCall n' i (CGetPow (cc_key c)) ∈ tra /\
    LoDid n' (PeVisit (cc_key c) (An (Ok (Some (AddVisitorResult (cc_duration c) (cc_difficulty_factor c)))))) ∈ tra /\
    LoDid n' (PeDraw (vr_token m)) ∈ tra /\
    Forall (fun e => about_challenge (vr_token m) e = None) (pool_cache trb).*1 /\
    (expiries_done t tr1 -> pool_clock t tr1 < pool_clock t tra + cc_duration c * NS).
Proof. exact c118_challenge. Qed.
Print Assumptions C118_challenge.

Theorem C118_once : forall ls t es s tr x,
  pl_run ls (po_init t) es = Some (s, tr) ->
  NoDup (pl_issuers x tr) /\ NoDup (pl_consumers x tr) /\ NoDup (pl_minters x tr) /\ NoDup (pl_acceptors x tr) /\
  (forall n, n ∈ pl_issuers x tr -> exists i k, LoCall n i (CGetPow k) ∈ tr /\ LoDid n (PeDraw x) ∈ tr) /\
  (forall n, n ∈ pl_minters x tr -> exists i w ip c, LoCall n i (CVerifyPow w ip) ∈ tr /\ cc_key c = w_key w /\
     n ∈ pl_consumers (w_string w) tr /\ passes (ls i) (checked_work w c) /\ LoDid n (PeDraw x) ∈ tr) /\
  (no_forging tr ->
   (length (pl_acceptors x tr) <= length (pl_minters x tr))%nat /\
   (length (pl_consumers x tr) <= length (pl_issuers x tr))%nat).
Proof. exact c118_once. Qed.
Print Assumptions C118_once.

(** A token stored on one System is good on every System, in its lifetime, until it
    is touched. *)
Theorem C118_good_everywhere : forall ls t es s tr tr1 n m r tr2 n' a tr3,
  pl_run ls (po_init t) es = Some (s, tr) ->
  tr = tr1 ++ LoDid n (PeCacheResult m (An r)) :: tr2 ++
       LoDid n' (PeVerify (VerifyCaptchaResult (cr_token m) (cr_key m)) a) :: tr3 ->
  Forall (fun e => ~ caches_token (cr_token m) e) (pool_cache tr1).*1 ->
  Forall (fun e => ~ touches_token (cr_token m) e) (pool_cache tr2).*1 ->
  pool_clock t (tr1 ++ LoDid n (PeCacheResult m (An r)) :: tr2) < pool_clock t tr1 + cr_duration m * NS ->
  a = An (Ok true) \/ unanswered a.
Proof. exact c118_good_everywhere. Qed.
Print Assumptions C118_good_everywhere.

Theorem C118_honest : forall ls t es s tr ng ig key cfg tr0 m a0 tr1 nv i w ip q a tr2 r,
  pl_run ls (po_init t) es = Some (s, tr) -> no_forging tr0 ->
  LoCall ng ig (CGetPow key) ∈ tr -> LoRet ng (RGetPow (Ok (Some cfg))) ∈ tr ->
  LoCall nv i (CVerifyPow w ip) ∈ tr -> LoRet nv r ∈ tr ->
  w_key w = key -> w_string w = pc_string cfg ->
  passes (ls i) (QueuedWork (PoW (w_result w) (w_nonce w)) (pc_string cfg) (pc_difficulty_factor cfg)) ->
  tr = tr0 ++ LoDid ng (PeCachePoW m a0) :: tr1 ++ LoDid nv (PeRetrieve q a) :: tr2 ->
  (** drawn for the first time, not touched by anybody else, not expired *)
  pl_issuers (pc_string cfg) tr0 = [] ->
  Forall (fun e => ~ touches_challenge (pc_string cfg) e) (pool_cache tr1).*1 ->
  pool_clock t (tr0 ++ LoDid ng (PeCachePoW m a0) :: tr1) < pool_clock t tr0 + cp_duration m * NS ->
  (exists tok, r = RVerifyPow (Ok (tok, pc_difficulty_factor cfg)) /\
     LoDid nv (PeCacheResult (CacheResult tok key (cp_duration m)) (An (Ok tt))) ∈ tr) \/
  pl_setback nv tr r.
Proof. exact c118_honest. Qed.
Print Assumptions C118_honest.

(** A session over two Systems with different salts: challenge from the first, work
    to the second a nanosecond before the challenge expires, token to the first,
    then to the second. *)
Definition ex_libs (i : nat) : pow_lib :=
  PowLib (match i with O => "pepper" | _ => "salt" end) (fun w d => Val (d <=? pw_nonce w))
    (fun w x => Val (String.eqb (pw_result w) ("ok" ++ x))).

Definition ex_good : work := Work "ch" "okch" 50 "site".

Definition ex_first : list plevent :=
  [LeCall 0 (CGetPow "site"); LeStep 0 (LVisit (An (Ok (Some (AddVisitorResult 30 50))))); LeStep 0 (LDraw "ch");
   LeStep 0 LCache; LeReturn 0; LeTick (30 * NS - 1);
   LeCall 1 (CVerifyPow ex_good "1.2.3.4"); LeStep 1 LCache; LeStep 1 (LSubmit (SuDone (Ok tt)));
   LeStep 1 (LVerdict (Some true)); LeStep 1 (LDraw "tok")].

Definition ex_check (i n : nat) : list plevent :=
  [LeCall i (CValidate (VerifyCaptchaResult "tok" "site")); LeStep n LCache; LeReturn n].

Definition ex_two : list plevent :=
  ex_first ++ [LeStep 1 LCache; LeReturn 1; LeTick 1; LeExpire (30 * NS) (DeletePoW "ch")] ++ ex_check 0 2 ++ ex_check 1 3.

Definition ex_pool (es : list plevent) : list plout :=
  match pl_run ex_libs (po_init 0) es with Some (_, tr) => tr | None => [] end.

Definition others (o : plout) : bool := match o with LoOther _ _ => true | _ => false end.

Definition returns (n : nat) (o : plout) : bool := match o with LoRet n' _ => bool_decide (n = n') | _ => false end.

Example C118_witness :
  (exists s, pl_run ex_libs (po_init 0) ex_two = Some (s, ex_pool ex_two)) /\
  (forall m r, LoOther m r ∉ ex_pool ex_two) /\
  passes (ex_libs 1) (QueuedWork (PoW (w_result ex_good) (w_nonce ex_good)) "ch" 50) /\
  exists tr0 tr1 tr2 tr3 tr4,
    ex_pool ex_two = tr0 ++ LoDid 0 (PeCachePoW (CachePoW "ch" 50 30 "site") (An (Ok tt))) :: tr1 ++
      LoDid 1 (PeRetrieve (VerifyCaptchaResult "ch" "site") (An (Ok (Some (CachedPoWConfig "site" 50 30))))) :: tr2 ++
      LoDid 1 (PeCacheResult (CacheResult "tok" "site" 30) (An (Ok tt))) :: tr3 ++
      LoDid 2 (PeVerify (VerifyCaptchaResult "tok" "site") (An (Ok true))) :: tr4 /\
    pl_issuers "ch" tr0 = [] /\ pl_issuers "ch" (ex_pool ex_two) = [0%nat] /\ pl_consumers "ch" (ex_pool ex_two) = [1%nat] /\
    pl_minters "tok" (ex_pool ex_two) = [1%nat] /\ pl_acceptors "tok" (ex_pool ex_two) = [2%nat] /\
    (pool_cache tr1).*1 = [HeTick (30 * NS - 1)] /\
    (pool_cache tr3).*1 = [HeTick 1; HeExpire (30 * NS) (DeletePoW "ch")] /\
    LoRet 0 (RGetPow (Ok (Some (PoWConfig "ch" 50 "pepper")))) ∈ tr1 /\
    LoRet 1 (RVerifyPow (Ok ("tok"%string, 50))) ∈ tr3 /\
    LoRet 2 (RValidate (Ok true)) ∈ tr4 /\ LoRet 3 (RValidate (Ok false)) ∈ tr4.
Proof.
  split; [|split; [|split]].
  - unfold ex_pool. destruct (pl_run _ _ _) as [[s tr]|] eqn:E; [by exists s|]. exfalso.
    assert (H : match pl_run ex_libs (po_init 0) ex_two with Some _ => True | None => False end)
      by (vm_compute; exact I). by rewrite E in H.
  - intros m r. apply (none_of others); [by vm_compute|done].
  - by split; vm_compute.
  - exists (take 3 (ex_pool ex_two)), (take 3 (drop 4 (ex_pool ex_two))), (take 3 (drop 8 (ex_pool ex_two))),
      (take 4 (drop 12 (ex_pool ex_two))), (drop 17 (ex_pool ex_two)).
    split; [by vm_compute|]. split_and!; try by vm_compute.
    all: vm_compute; repeat (first [by left|right]).
Qed.

(** The caller gives up while the token is on its way to the cache: it is good,
    though nobody was given it. *)
Example C118_late_witness :
  let es := ex_first ++ [LeDrop 1; LeTick 5; LeLate 0] ++ ex_check 0 2 in
  (exists s, pl_run ex_libs (po_init 0) es = Some (s, ex_pool es)) /\
  LoLate 1 (HmCacheResult (CacheResult "tok" "site" 30)) (HrUnit (Ok tt)) ∈ ex_pool es /\
  (forall r, LoRet 1 r ∉ ex_pool es) /\ LoRet 2 (RValidate (Ok true)) ∈ ex_pool es.
Proof.
  intros es. split_and!.
  - unfold ex_pool. destruct (pl_run _ _ _) as [[s tr]|] eqn:E; [by exists s|]. exfalso.
    assert (H : match pl_run ex_libs (po_init 0) es with Some _ => True | None => False end)
      by (vm_compute; exact I). by rewrite E in H.
  - vm_compute. repeat (first [by left|right]).
  - intros r. apply (none_of (returns 1)); [by vm_compute|done].
  - vm_compute. repeat (first [by left|right]).
Qed.
