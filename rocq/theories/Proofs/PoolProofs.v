(** Proofs about several Systems on one in-memory cache. *)
From Coq Require Import ZifyBool ZifyN ZifyNat Lia.
From Verif Require Import Model.Base Model.MCaptcha Model.HashCache Model.Pow Model.System Model.SystemProgram
  Model.SystemPool Spec.CacheSpec Spec.ProgramSpec Spec.PoolSpec
  Proofs.CacheProofs Proofs.ProgramProofs Proofs.SharedProofs Proofs.SystemHistory Proofs.CacheTheorems.

Lemma pl_run_snoc ls s es e s2 tr : pl_run ls s (es ++ [e]) = Some (s2, tr) ->
  exists s1 tr1 o, pl_run ls s es = Some (s1, tr1) /\ pl_step ls s1 e = Some (s2, o) /\ tr = tr1 ++ [o].
Proof.
  revert s tr. induction es as [|x es IH]; intros s tr; cbn [app pl_run].
  - destruct (pl_step ls s e) as [[s1 o]|] eqn:E; [|done]. intros [= <- <-]. by exists s, [], o.
  - destruct (pl_step ls s x) as [[s1 o1]|]; [|done]. destruct (pl_run ls s1 (es ++ [e])) as [[s3 o3]|] eqn:E; [|done].
    intros [= <- <-]. apply IH in E as (s0 & tr0 & o & H1 & H2 & ->). exists s0, (o1 :: tr0), o. by rewrite H1.
Qed.
Lemma pool_cache_app a b : pool_cache (a ++ b) = pool_cache a ++ pool_cache b.
Proof. apply omap_app. Qed.
Lemma pl_requests_app n a b : pl_requests n (a ++ b) = pl_requests n a ++ pl_requests n b.
Proof. apply omap_app. Qed.
Lemma pl_requests_split n tr1 e tr2 :
  pl_requests n (tr1 ++ LoDid n e :: tr2) = pl_requests n tr1 ++ e :: pl_requests n tr2.
Proof. rewrite pl_requests_app. cbn. by rewrite decide_True. Qed.
Lemma pl_requests_elem n tr e : e ∈ pl_requests n tr <-> LoDid n e ∈ tr.
Proof.
  unfold pl_requests. rewrite elem_of_list_omap. split.
  - intros (o & Ho & Hd). destruct o as [|n' e'| | | | | |]; try done. case_decide; [|done]. by simplify_eq.
  - intros H. eexists. split; [done|]. cbn. by rewrite decide_True.
Qed.

(** What a step of a call is. *)
Record told (l : pow_lib) (now : N) (h : hashcache) (p : prog) (h' : hashcache) (p' : prog) (e : pev) : Prop := {
  to_step : p_step p e = Some p';
  to_cache : match cache_talk e with Some (m, Some r) => hc_handle now h m = (h', r) | _ => h' = h end;
  to_verdict : forall q b, e = PeVerdict q (Some b) -> head (fst (validate l q)) = Some b }.
Lemma respond_told l now h p x h' p' e : pl_respond l now h p x = Some (h', p', e) -> told l now h p h' p' e.
Proof.
  intros H. destruct p, x; try discriminate H; cbn [pl_respond] in H;
    repeat match type of H with
    | context [match hc_handle ?a ?b ?c with _ => _ end] =>
        destruct (hc_handle a b c) as [hx rx] eqn:Et; destruct rx; try discriminate H
    | context [if ?b then _ else _] => destruct b eqn:Eb; [|discriminate H]
    end; injection H as <- <- <-; split; cbn [p_step cache_talk]; rewrite ?decide_True by done; try done;
    try (intros ? ? [=]; fail); try (by destruct closed).
  - intros q' b' [= -> ->]. cbn in Eb. by apply bool_decide_eq_true in Eb.
Qed.

(** * The invariant *)
Definition pl_follows (ls : nat -> pow_lib) (tr : list plout) (n i : nat) (p : prog) : Prop :=
  exists c, LoCall n i c ∈ tr /\ (forall i' c', LoCall n i' c' ∈ tr -> i' = i /\ c' = c) /\
    p_run (program (pl_salt (ls i)) c) (pl_requests n tr) = Some p.
Definition lates (tr : list plout) : list (nat * cache_msg) :=
  omap (fun o => match o with LoLate n m _ => Some (n, m) | _ => None end) tr.
Lemma lates_app a b : lates (a ++ b) = lates a ++ lates b.
Proof. apply omap_app. Qed.
(** Messages of dropped calls, handled or not. *)
Definition adrift (tr : list plout) (s : pool) : list (nat * cache_msg) := po_late s ++ lates tr.
Lemma adrift_step ls tr s e s' o : pl_step ls s e = Some (s', o) ->
  (exists n i p m, e = LeDrop n /\ po_calls s !! n = Some (i, p) /\ pending p = Some m /\
     adrift (tr ++ [o]) s' ≡ₚ (n, m) :: adrift tr s) \/
  ((forall n, e <> LeDrop n) /\ adrift (tr ++ [o]) s' ≡ₚ adrift tr s).
Proof.
  unfold adrift. rewrite lates_app. intros Hs. destruct e as [i c|n x|n|n|n|j|m|due d|d]; cbn [pl_step] in Hs.
  - right. split; [done|]. injection Hs as <- <-. cbn. by rewrite app_nil_r.
  - right. split; [done|]. destruct (po_calls s !! n) as [[i p]|]; [|done]. destruct (pl_respond _ _ _ _ _) as [[[h p'] e]|]; [|done].
    injection Hs as <- <-. cbn. by rewrite app_nil_r.
  - right. split; [done|]. destruct (po_calls s !! n) as [[i [r| | | | | | | |]]|]; try done. injection Hs as <- <-. cbn. by rewrite app_nil_r.
  - right. split; [done|]. destruct (po_calls s !! n) as [[i p]|]; [|done]. injection Hs as <- <-. cbn. by rewrite app_nil_r.
  - left. destruct (po_calls s !! n) as [[i p]|] eqn:En; [|done]. destruct (pending p) as [m|] eqn:Ep; [|done]. injection Hs as <- <-.
    exists n, i, p, m. split; [done|]. split; [done|]. split; [done|]. cbn. rewrite app_nil_r, <- app_assoc. cbn.
    by rewrite <- Permutation_middle.
  - right. split; [done|]. destruct (po_late s !! j) as [[n m]|] eqn:Ej; [|done]. destruct (hc_handle _ _ m) as [h r]. injection Hs as <- <-.
    cbn. rewrite (delete_Permutation _ _ _ Ej) at 2. cbn. by rewrite app_assoc, Permutation_app_comm.
  - right. split; [done|]. destruct (hc_handle _ _ m) as [h r]. injection Hs as <- <-. cbn. by rewrite app_nil_r.
  - right. split; [done|]. destruct (hc_expire _ _ due d) as [h|]; [|done]. injection Hs as <- <-. cbn. by rewrite app_nil_r.
  - right. split; [done|]. injection Hs as <- <-. cbn. by rewrite app_nil_r.
Qed.
Record plinv (ls : nat -> pow_lib) (t : N) (tr : list plout) (s : pool) : Prop := {
  pi_cache : cache_run (cache_start t) (pool_cache tr).*1 = Some (CacheSys (po_now s) (po_cache s), (pool_cache tr).*2);
  pi_old : forall n, (n < po_next s)%nat -> exists i p, pl_follows ls tr n i p /\
    (po_calls s !! n = Some (i, p) \/ po_calls s !! n = None) /\
    (forall r, LoRet n r ∈ tr -> p = PRet r /\ po_calls s !! n = None) /\
    (forall m, (n, m) ∈ adrift tr s -> pending p = Some m /\ po_calls s !! n = None);
  pi_late : NoDup (adrift tr s).*1;
  pi_new : forall n, (po_next s <= n)%nat -> po_calls s !! n = None /\ pl_requests n tr = [] /\
    (forall i c, LoCall n i c ∉ tr) /\ (forall r, LoRet n r ∉ tr) /\ (forall m, (n, m) ∉ adrift tr s) }.

Lemma pl_follows_other ls tr n i p o : pl_follows ls tr n i p -> pl_requests n [o] = [] ->
  (forall i c, o <> LoCall n i c) -> pl_follows ls (tr ++ [o]) n i p.
Proof.
  intros (c & Hc & Hu & Hp) Hr Ho. exists c. split; [apply elem_of_app; by left|]. split.
  - intros i' c' [Hx|Hx%elem_of_list_singleton]%elem_of_app; [by apply Hu|]. by destruct (Ho i' c').
  - by rewrite pl_requests_app, Hr, app_nil_r.
Qed.
Lemma plinv_live ls t tr s n i p : plinv ls t tr s -> po_calls s !! n = Some (i, p) ->
  (n < po_next s)%nat /\ pl_follows ls tr n i p /\ (forall r, LoRet n r ∉ tr) /\ forall m, (n, m) ∉ adrift tr s.
Proof.
  intros H Hn. assert (Hlt : (n < po_next s)%nat).
  { destruct (decide (n < po_next s)%nat); [done|]. destruct (pi_new _ _ _ _ H n) as [E _]; [lia|congruence]. }
  split; [done|]. destruct (pi_old _ _ _ _ H n Hlt) as (i' & p' & Hf & Hl & Hr & Hd).
  destruct Hl as [Hl|Hl]; [|congruence]. rewrite Hn in Hl. injection Hl as <- <-. split; [done|]. split.
  - intros r Hin. destruct (Hr r Hin) as [_ E]. congruence.
  - intros m Hin. destruct (Hd m Hin) as [_ E]. congruence.
Qed.
Lemma pl_skip_ne n n' e : n <> n' -> pl_requests n [LoDid n' e] = [].
Proof. intros Hne. cbn. by rewrite decide_False. Qed.

Lemma pl_cache_step ls t tr s e s' o : plinv ls t tr s -> pl_step ls s e = Some (s', o) ->
  cache_run (cache_start t) (pool_cache (tr ++ [o])).*1 =
    Some (CacheSys (po_now s') (po_cache s'), (pool_cache (tr ++ [o])).*2).
Proof.
  intros H Hs. pose proof (pi_cache _ _ _ _ H) as Hc. rewrite pool_cache_app, !fmap_app.
  assert (Hsnoc : forall ev r, cache_step (CacheSys (po_now s) (po_cache s)) ev = Some (CacheSys (po_now s') (po_cache s'), r) ->
    cache_run (cache_start t) ((pool_cache tr).*1 ++ [ev]) =
      Some (CacheSys (po_now s') (po_cache s'), (pool_cache tr).*2 ++ [r])).
  { intros ev r Hev. apply cache_run_snoc. eauto 10. }
  destruct e as [i c|n x|n|n|n|j|m|due d|d]; cbn [pl_step] in Hs.
  - injection Hs as <- <-. cbn. by rewrite !app_nil_r.
  - destruct (po_calls s !! n) as [[i p]|]; [|done]. destruct (pl_respond _ _ _ _ _) as [[[h p'] e]|] eqn:Er; [|done].
    injection Hs as <- <-. apply respond_told in Er as [_ Ht _]. unfold pool_cache at 2 4. cbn [omap list_omap cache_seen].
    destruct (cache_talk e) as [[m [r|]]|]; [|subst h; cbn; by rewrite !app_nil_r..].
    cbn. apply Hsnoc. cbn. by rewrite Ht.
  - destruct (po_calls s !! n) as [[i [r| | | | | | | |]]|]; try done. injection Hs as <- <-. cbn. by rewrite !app_nil_r.
  - destruct (po_calls s !! n) as [[i p]|]; [|done]. injection Hs as <- <-. cbn. by rewrite !app_nil_r.
  - destruct (po_calls s !! n) as [[i p]|]; [|done]. destruct (pending p); [|done]. injection Hs as <- <-. cbn. by rewrite !app_nil_r.
  - destruct (po_late s !! j) as [[n m]|]; [|done].
    destruct (hc_handle _ _ m) as [h r] eqn:Eh. injection Hs as <- <-. cbn. apply Hsnoc. cbn. by rewrite Eh.
  - destruct (hc_handle _ _ m) as [h r] eqn:Eh. injection Hs as <- <-. cbn. apply Hsnoc. cbn. by rewrite Eh.
  - destruct (hc_expire _ _ due d) as [h|] eqn:Eh; [|done]. injection Hs as <- <-. cbn. apply Hsnoc. cbn. by rewrite Eh.
  - injection Hs as <- <-. cbn. by apply Hsnoc.
Qed.

Lemma pl_quiet_step ls t tr s s' o : plinv ls t tr s -> po_calls s' = po_calls s -> po_next s' = po_next s ->
  cache_run (cache_start t) (pool_cache (tr ++ [o])).*1 =
    Some (CacheSys (po_now s') (po_cache s'), (pool_cache (tr ++ [o])).*2) ->
  adrift (tr ++ [o]) s' ≡ₚ adrift tr s ->
  (forall n, pl_requests n [o] = []) -> (forall n i c, o <> LoCall n i c) -> (forall n r, o <> LoRet n r) ->
  plinv ls t (tr ++ [o]) s'.
Proof.
  intros H Ec En Hcache Hd Hreq Hnc Hnr. split; [done|rewrite En, Ec|rewrite Hd; by apply (pi_late _ _ _ _ H)|rewrite En, Ec].
  - intros n' Hn'. destruct (pi_old _ _ _ _ H n' Hn') as (i' & p0 & Hf' & Hl & Hr' & Hd'). exists i', p0.
    split; [by apply pl_follows_other|]. split; [done|]. split.
    + intros r' [Hx|Hx%elem_of_list_singleton]%elem_of_app; [by apply Hr'|]. by destruct (Hnr n' r').
    + intros m Hm. rewrite Hd in Hm. by apply Hd'.
  - intros n' Hn'. destruct (pi_new _ _ _ _ H n') as (E1 & E2 & E3 & E4 & E5); [lia|].
    split; [done|]. rewrite pl_requests_app, E2, Hreq. split; [done|]. split_and!.
    + intros i' c' [Hx|Hx%elem_of_list_singleton]%elem_of_app; [by destruct (E3 i' c')|by destruct (Hnc n' i' c')].
    + intros r' [Hx|Hx%elem_of_list_singleton]%elem_of_app; [by destruct (E4 r')|by destruct (Hnr n' r')].
    + intros m Hm. rewrite Hd in Hm. by apply (E5 m).
Qed.

Lemma plinv_step ls t tr s e s' o : plinv ls t tr s -> pl_step ls s e = Some (s', o) -> plinv ls t (tr ++ [o]) s'.
Proof.
  intros H Hs. pose proof (pl_cache_step _ _ _ _ _ _ _ H Hs) as Hcache.
  destruct (adrift_step ls tr s e s' o Hs) as [(n & i & p & m & -> & En & Ep & Hd)|[Hnd Hd]].
  - (* a call is dropped after its message was sent *)
    cbn [pl_step] in Hs. rewrite En, Ep in Hs. injection Hs as <- <-.
    destruct (plinv_live _ _ _ _ _ _ _ H En) as (Hlt & Hf & Hnr & Hna). split; [done|cbn [po_next po_calls]| |cbn [po_next po_calls]].
    + intros n' Hn'. destruct (decide (n' = n)) as [->|Hne].
      * exists i, p. split; [by apply pl_follows_other|]. rewrite lookup_delete. split; [by right|]. split.
        -- intros r' [Hx|Hx%elem_of_list_singleton]%elem_of_app; [by destruct (Hnr r')|done].
        -- intros m' Hm'. rewrite Hd in Hm'. apply elem_of_cons in Hm' as [Hm'|Hm']; [by injection Hm' as ->|by destruct (Hna m')].
      * destruct (pi_old _ _ _ _ H n' Hn') as (i' & p0 & Hf' & Hl & Hr' & Hd'). exists i', p0.
        rewrite lookup_delete_ne by done. split; [by apply pl_follows_other|]. split; [done|]. split.
        -- intros r' [Hx|Hx%elem_of_list_singleton]%elem_of_app; [by apply Hr'|]. done.
        -- intros m' Hm'. rewrite Hd in Hm'. apply elem_of_cons in Hm' as [Hm'|Hm']; [congruence|by apply Hd'].
    + rewrite Hd. cbn. apply NoDup_cons. split; [|apply (pi_late _ _ _ _ H)].
      intros ([n' m'] & -> & Hx)%elem_of_list_fmap. by destruct (Hna m').
    + intros n' Hn'. destruct (pi_new _ _ _ _ H n') as (E1 & E2 & E3 & E4 & E5); [lia|].
      rewrite lookup_delete_ne by lia. split; [done|]. rewrite pl_requests_app, E2. split; [done|]. split_and!.
      * intros i' c' [Hx|Hx%elem_of_list_singleton]%elem_of_app; [by destruct (E3 i' c')|done].
      * intros r' [Hx|Hx%elem_of_list_singleton]%elem_of_app; [by destruct (E4 r')|done].
      * intros m' Hm'. rewrite Hd in Hm'. apply elem_of_cons in Hm' as [Hm'|Hm']; [injection Hm'; lia|by destruct (E5 m')].
  - pose proof (pi_late _ _ _ _ H) as Hlate. rewrite <- Hd in Hlate.
    assert (Hdi : forall n m, (n, m) ∈ adrift (tr ++ [o]) s' -> (n, m) ∈ adrift tr s) by (intros n m; by rewrite Hd).
    destruct e as [i c|n x|n|n|n|j|m|due d|d]; cbn [pl_step] in Hs.
    + injection Hs as <- <-. split; [done|cbn [po_next po_calls]|done|cbn [po_next po_calls]].
      * intros n Hn. destruct (decide (n = po_next s)) as [->|Hne].
        -- destruct (pi_new _ _ _ _ H (po_next s)) as (E1 & E2 & E3 & E4 & E5); [done|].
           exists i, (program (pl_salt (ls i)) c). split; [|split; [by left; rewrite lookup_insert|split]].
           ++ exists c. split; [apply elem_of_app; right; by left|]. split.
              ** intros i' c' [Hx|Hx%elem_of_list_singleton]%elem_of_app; [by destruct (E3 i' c')|]. by injection Hx.
              ** by rewrite pl_requests_app, E2.
           ++ intros r [Hx|Hx%elem_of_list_singleton]%elem_of_app; [by destruct (E4 r)|done].
           ++ intros m Hm. destruct (E5 m); by apply Hdi.
        -- destruct (pi_old _ _ _ _ H n) as (i' & p & Hf & Hl & Hr & Hd'); [lia|]. exists i', p.
           rewrite lookup_insert_ne by done. split; [apply pl_follows_other; [done|done|congruence]|]. split; [done|]. split.
           ++ intros r [Hx|Hx%elem_of_list_singleton]%elem_of_app; [by apply Hr|done].
           ++ intros m Hm. by apply Hd', Hdi.
      * intros n Hn. destruct (pi_new _ _ _ _ H n) as (E1 & E2 & E3 & E4 & E5); [lia|].
        rewrite lookup_insert_ne by lia. split; [done|]. rewrite pl_requests_app, E2. split; [done|]. split_and!.
        -- intros i' c' [Hx|Hx%elem_of_list_singleton]%elem_of_app; [by destruct (E3 i' c')|]. injection Hx. lia.
        -- intros r [Hx|Hx%elem_of_list_singleton]%elem_of_app; [by destruct (E4 r)|done].
        -- intros m Hm. destruct (E5 m); by apply Hdi.
    + destruct (po_calls s !! n) as [[i p]|] eqn:En; [|done].
      destruct (pl_respond _ _ _ _ _) as [[[h p'] e]|] eqn:Er; [|done].
      injection Hs as <- <-. apply respond_told in Er as [Hp _ _].
      destruct (plinv_live _ _ _ _ _ _ _ H En) as (Hlt & Hf & Hnr & Hna).
      split; [done|cbn [po_next po_calls]|done|cbn [po_next po_calls]].
      * intros n' Hn'. destruct (decide (n' = n)) as [->|Hne].
        -- exists i, p'. split; [|split; [by left; rewrite lookup_insert|split]].
           ++ destruct Hf as (c & Hc & Hu & Hpr). exists c. split; [apply elem_of_app; by left|]. split.
              ** intros i' c' [Hx|Hx%elem_of_list_singleton]%elem_of_app; [by apply Hu|done].
              ** rewrite pl_requests_split. by eapply p_run_snoc.
           ++ intros r [Hx|Hx%elem_of_list_singleton]%elem_of_app; [by destruct (Hnr r)|done].
           ++ intros m Hm. destruct (Hna m); by apply Hdi.
        -- destruct (pi_old _ _ _ _ H n' Hn') as (i' & p0 & Hf' & Hl & Hr' & Hd'). exists i', p0.
           rewrite lookup_insert_ne by done.
           split; [apply pl_follows_other; [done|by apply pl_skip_ne|congruence]|]. split; [done|]. split.
           ++ intros r [Hx|Hx%elem_of_list_singleton]%elem_of_app; [by apply Hr'|done].
           ++ intros m Hm. by apply Hd', Hdi.
      * intros n' Hn'. destruct (pi_new _ _ _ _ H n') as (E1 & E2 & E3 & E4 & E5); [lia|].
        rewrite lookup_insert_ne by lia. split; [done|]. rewrite pl_requests_app, E2, pl_skip_ne by lia.
        split; [done|]. split_and!.
        -- intros i' c' [Hx|Hx%elem_of_list_singleton]%elem_of_app; [by destruct (E3 i' c')|done].
        -- intros r [Hx|Hx%elem_of_list_singleton]%elem_of_app; [by destruct (E4 r)|done].
        -- intros m Hm. destruct (E5 m); by apply Hdi.
    + destruct (po_calls s !! n) as [[i [r| | | | | | | |]]|] eqn:En; try done. injection Hs as <- <-.
      destruct (plinv_live _ _ _ _ _ _ _ H En) as (Hlt & Hf & Hnr & Hna).
      split; [done|cbn [po_next po_calls]|done|cbn [po_next po_calls]].
      * intros n' Hn'. destruct (decide (n' = n)) as [->|Hne].
        -- exists i, (PRet r). split; [by apply pl_follows_other|]. rewrite lookup_delete. split; [by right|]. split.
           ++ intros r' [Hx|Hx%elem_of_list_singleton]%elem_of_app; [by destruct (Hnr r')|]. by injection Hx as ->.
           ++ intros m Hm. destruct (Hna m); by apply Hdi.
        -- destruct (pi_old _ _ _ _ H n' Hn') as (i' & p0 & Hf' & Hl & Hr' & Hd'). exists i', p0.
           rewrite lookup_delete_ne by done. split; [by apply pl_follows_other|]. split; [done|]. split.
           ++ intros r' [Hx|Hx%elem_of_list_singleton]%elem_of_app; [by apply Hr'|]. congruence.
           ++ intros m Hm. by apply Hd', Hdi.
      * intros n' Hn'. destruct (pi_new _ _ _ _ H n') as (E1 & E2 & E3 & E4 & E5); [lia|].
        rewrite lookup_delete_ne by lia. split; [done|]. rewrite pl_requests_app, E2. split; [done|]. split_and!.
        -- intros i' c' [Hx|Hx%elem_of_list_singleton]%elem_of_app; [by destruct (E3 i' c')|done].
        -- intros r' [Hx|Hx%elem_of_list_singleton]%elem_of_app; [by destruct (E4 r')|]. injection Hx. lia.
        -- intros m Hm. destruct (E5 m); by apply Hdi.
    + destruct (po_calls s !! n) as [[i p]|] eqn:En; try done. injection Hs as <- <-.
      destruct (plinv_live _ _ _ _ _ _ _ H En) as (Hlt & Hf & Hnr & Hna).
      split; [done|cbn [po_next po_calls]|done|cbn [po_next po_calls]].
      * intros n' Hn'. destruct (decide (n' = n)) as [->|Hne].
        -- exists i, p. split; [by apply pl_follows_other|]. rewrite lookup_delete. split; [by right|]. split.
           ++ intros r' [Hx|Hx%elem_of_list_singleton]%elem_of_app; [by destruct (Hnr r')|done].
           ++ intros m Hm. destruct (Hna m); by apply Hdi.
        -- destruct (pi_old _ _ _ _ H n' Hn') as (i' & p0 & Hf' & Hl & Hr' & Hd'). exists i', p0.
           rewrite lookup_delete_ne by done. split; [by apply pl_follows_other|]. split; [done|]. split.
           ++ intros r' [Hx|Hx%elem_of_list_singleton]%elem_of_app; [by apply Hr'|]. done.
           ++ intros m Hm. by apply Hd', Hdi.
      * intros n' Hn'. destruct (pi_new _ _ _ _ H n') as (E1 & E2 & E3 & E4 & E5); [lia|].
        rewrite lookup_delete_ne by lia. split; [done|]. rewrite pl_requests_app, E2. split; [done|]. split_and!.
        -- intros i' c' [Hx|Hx%elem_of_list_singleton]%elem_of_app; [by destruct (E3 i' c')|done].
        -- intros r' [Hx|Hx%elem_of_list_singleton]%elem_of_app; [by destruct (E4 r')|done].
        -- intros m Hm. destruct (E5 m); by apply Hdi.
    + by destruct (Hnd n).
    + destruct (po_late s !! j) as [[n m]|]; [|done]. destruct (hc_handle _ _ m) as [h r]. injection Hs as <- <-.
      by eapply pl_quiet_step.
    + destruct (hc_handle _ _ m) as [h r]. injection Hs as <- <-. by eapply pl_quiet_step.
    + destruct (hc_expire _ _ due d) as [h|]; [|done]. injection Hs as <- <-. by eapply pl_quiet_step.
    + injection Hs as <- <-. by eapply pl_quiet_step.
Qed.
Lemma run_plinv ls t es s tr : pl_run ls (po_init t) es = Some (s, tr) -> plinv ls t tr s.
Proof.
  revert s tr. induction es as [|e es IH] using rev_ind; intros s tr Hr.
  - injection Hr as <- <-. split; cbn; [done|lia|constructor|]. intros n _. rewrite lookup_empty. split; [done|]. split; [done|].
    split_and!; intros; apply not_elem_of_nil.
  - apply pl_run_snoc in Hr as (s1 & tr1 & o & H1 & H2 & ->). eapply plinv_step; [by apply IH|done].
Qed.

(** * Every request, where it stands in the trace *)
Lemma pl_run_at ls t es s tr tr1 o tr2 : pl_run ls (po_init t) es = Some (s, tr) -> tr = tr1 ++ o :: tr2 ->
  exists es1 s1 e s2, pl_run ls (po_init t) es1 = Some (s1, tr1) /\ pl_step ls s1 e = Some (s2, o).
Proof.
  revert s tr tr2. induction es as [|e es IH] using rev_ind; intros s tr tr2 Hr E.
  - injection Hr as <- <-. by destruct tr1.
  - apply pl_run_snoc in Hr as (s1 & tr0 & o' & H1 & H2 & Ho).
    destruct (nil_or_snoc tr2) as [->|(tr3 & x & ->)].
    + rewrite E in Ho. apply app_inj_tail in Ho as [-> ->]. by exists es, s1, e, s.
    + rewrite E, app_comm_cons, app_assoc in Ho. apply app_inj_tail in Ho as [Ho _]. by eapply (IH _ _ tr3 H1).
Qed.
Lemma pl_did_at ls t es s tr tr1 n e tr2 :
  pl_run ls (po_init t) es = Some (s, tr) -> tr = tr1 ++ LoDid n e :: tr2 ->
  exists i p p' h h', pl_follows ls tr1 n i p /\
    cache_run (cache_start t) (pool_cache tr1).*1 = Some (CacheSys (pool_clock t tr1) h, (pool_cache tr1).*2) /\
    told (ls i) (pool_clock t tr1) h p h' p' e.
Proof.
  intros Hr E. destruct (pl_run_at _ _ _ _ _ _ _ _ Hr E) as (es1 & s1 & ev & s2 & H1 & H2).
  pose proof (run_plinv _ _ _ _ _ H1) as Hi.
  destruct ev as [i c|m x|m|m|m|j|m|due d|d]; cbn [pl_step] in H2; try done.
  - destruct (po_calls s1 !! m) as [[i p]|] eqn:En; [|done].
    destruct (pl_respond _ _ _ _ _) as [[[h p'] e']|] eqn:Er; [|done]. injection H2 as _ -> ->.
    destruct (plinv_live _ _ _ _ _ _ _ Hi En) as (_ & Hf & _ & _). apply respond_told in Er.
    pose proof (pi_cache _ _ _ _ Hi) as Hc. destruct (run_maps t _ _ _ "" Hc) as (_ & _ & Hnow). cbn in Hnow.
    unfold pool_clock. rewrite <- Hnow. by exists i, p, p', (po_cache s1), h.
  - destruct (po_calls s1 !! m) as [[i [r| | | | | | | |]]|]; done.
  - by destruct (po_calls s1 !! m) as [[i p]|].
  - destruct (po_calls s1 !! m) as [[i p]|]; [|done]. by destruct (pending p).
  - destruct (po_late s1 !! j) as [[n' m']|]; [|done]. by destruct (hc_handle _ _ m').
  - by destruct (hc_handle _ _ m).
  - by destruct (hc_expire _ _ due d).
Qed.
Lemma pl_ret_at ls t es s tr n r :
  pl_run ls (po_init t) es = Some (s, tr) -> LoRet n r ∈ tr ->
  exists i c, LoCall n i c ∈ tr /\ p_run (program (pl_salt (ls i)) c) (pl_requests n tr) = Some (PRet r).
Proof.
  intros Hr Hin. pose proof (run_plinv _ _ _ _ _ Hr) as Hi.
  destruct (decide (n < po_next s)%nat) as [Hlt|Hge].
  - destruct (pi_old _ _ _ _ Hi n Hlt) as (i & p & (c & Hc & _ & Hp) & _ & Hret & _).
    destruct (Hret _ Hin) as [-> _]. by exists i, c.
  - destruct (pi_new _ _ _ _ Hi n) as (_ & _ & _ & E & _); [lia|]. by destruct (E r).
Qed.
Lemma pl_call_once ls t es s tr n i c i' c' : pl_run ls (po_init t) es = Some (s, tr) ->
  LoCall n i c ∈ tr -> LoCall n i' c' ∈ tr -> i' = i /\ c' = c.
Proof.
  intros Hr H1 H2. pose proof (run_plinv _ _ _ _ _ Hr) as Hi. destruct (decide (n < po_next s)%nat) as [Hlt|Hge].
  - destruct (pi_old _ _ _ _ Hi n Hlt) as (i0 & p & (c0 & _ & Hu & _) & _).
    destruct (Hu _ _ H1) as [-> ->]. by apply Hu.
  - destruct (pi_new _ _ _ _ Hi n) as (_ & _ & E & _ & _); [lia|]. by destruct (E i c).
Qed.

(** A message that a dropped call had sent: the call had come to it. *)
Lemma pl_late_at ls t es s tr tr1 n m r tr2 :
  pl_run ls (po_init t) es = Some (s, tr) -> tr = tr1 ++ LoLate n m r :: tr2 ->
  (exists i p, pl_follows ls tr1 n i p /\ pending p = Some m) /\ n ∉ (lates tr1).*1 /\
  exists h h', cache_run (cache_start t) (pool_cache tr1).*1 = Some (h, (pool_cache tr1).*2) /\
    cache_step h (HeMsg m) = Some (h', Some r).
Proof.
  intros Hr E. destruct (pl_run_at _ _ _ _ _ _ _ _ Hr E) as (es1 & s1 & ev & s2 & H1 & H2).
  pose proof (run_plinv _ _ _ _ _ H1) as Hi.
  destruct ev as [i c|m' x|m'|m'|m'|j|m'|due d|d]; cbn [pl_step] in H2; try done.
  - destruct (po_calls s1 !! m') as [[i p]|] eqn:En; [|done].
    by destruct (pl_respond _ _ _ _ _) as [[[h p'] e']|] eqn:Er.
  - destruct (po_calls s1 !! m') as [[i [r'| | | | | | | |]]|]; done.
  - by destruct (po_calls s1 !! m') as [[i p]|].
  - destruct (po_calls s1 !! m') as [[i p]|]; [|done]. by destruct (pending p).
  - destruct (po_late s1 !! j) as [[n' m']|] eqn:Ej; [|done]. destruct (hc_handle _ _ m') as [h r'] eqn:Eh. injection H2 as _ -> -> ->.
    assert (Ha : (n, m) ∈ adrift tr1 s1) by (apply elem_of_app; left; by eapply elem_of_list_lookup_2).
    split; [|split].
    + destruct (decide (n < po_next s1)%nat) as [Hlt|Hge].
      * destruct (pi_old _ _ _ _ Hi n Hlt) as (i & p & Hf & _ & _ & Hd). exists i, p. by destruct (Hd _ Ha).
      * destruct (pi_new _ _ _ _ Hi n) as (_ & _ & _ & _ & E5); [lia|]. by destruct (E5 m).
    + pose proof (pi_late _ _ _ _ Hi) as Hl. unfold adrift in Hl. rewrite fmap_app in Hl.
      apply NoDup_app in Hl as (_ & Hl & _). apply Hl. apply elem_of_list_fmap. exists (n, m). split; [done|].
      by eapply elem_of_list_lookup_2.
    + exists (CacheSys (po_now s1) (po_cache s1)), (CacheSys (po_now s1) h). split; [apply (pi_cache _ _ _ _ Hi)|].
      cbn. by rewrite Eh.
  - by destruct (hc_handle _ _ m').
  - by destruct (hc_expire _ _ due d).
Qed.

(** * What is behind a request to the cache *)
(** A token that is stored: by verify_pow, for work that passes. *)
Lemma pl_store_at ls t es s tr tr1 n o m tr2 :
  pl_run ls (po_init t) es = Some (s, tr) -> tr = tr1 ++ o :: tr2 -> pl_stores o = Some (n, m) ->
  exists i w ip c, LoCall n i (CVerifyPow w ip) ∈ tr1 /\ cc_key c = w_key w /\
    m = CacheResult (cr_token m) (w_key w) (cc_duration c) /\ passes (ls i) (checked_work w c) /\
    pl_requests n tr1 =
      [PeRetrieve (VerifyCaptchaResult (w_string w) (w_key w)) (An (Ok (Some c)));
       PeSubmit ip (checked_work w c) (SuDone (Ok tt)); PeVerdict (checked_work w c) (Some true); PeDraw (cr_token m)].
Proof.
  intros Hr E Ho.
  assert (exists i p p' a, pl_follows ls tr1 n i p /\ p_step p (PeCacheResult m a) = Some p') as (i & p & p' & a & (c0 & Hc & Hu & Hp) & Hst).
  { destruct o as [|n' e| | |n' m' r| | |]; try discriminate Ho.
    - destruct e as [| | | | | |m' [| |a]|]; try discriminate Ho. injection Ho as -> ->.
      destruct (pl_did_at _ _ _ _ _ _ _ _ _ Hr E) as (i & p & p' & h & h' & Hf & _ & [Hst _ _]). eauto 10.
    - destruct m' as [| |m'| |]; try discriminate Ho. injection Ho as -> ->.
      destruct (pl_late_at _ _ _ _ _ _ _ _ _ _ Hr E) as [(i & p & Hf & Hp) _]. destruct p; try discriminate Hp.
      injection Hp as ->. exists i, (PCacheResult m k), (k AnClosed), AnClosed. split; [done|]. cbn. by rewrite decide_True. }
  assert (p_run (program (pl_salt (ls i)) c0) (pl_requests n tr1 ++ [PeCacheResult m a]) = Some p') as Hp'
    by (by eapply p_run_snoc).
  destruct (before_store _ _ _ _ _ _ Hp') as (w & ip & c & tok & -> & Hk & -> & Hes).
  exists i, w, ip, c. split; [done|]. split; [done|]. split; [done|]. split; [|done].
  assert (LoDid n (PeVerdict (checked_work w c) (Some true)) ∈ tr1) as Hv.
  { apply pl_requests_elem. rewrite Hes. do 2 right. by left. }
  apply elem_of_list_split in Hv as (ta & tb & ->).
  destruct (pl_did_at _ _ _ _ _ ta n (PeVerdict (checked_work w c) (Some true)) (tb ++ o :: tr2) Hr)
    as (i' & q & q' & g & g' & (c' & Hc' & _ & _) & _ & [_ _ Hverd]); [by rewrite E, <- app_assoc|].
  destruct (Hu i' c') as [-> _]; [apply elem_of_app; by left|].
  apply head_true. by apply Hverd.
Qed.
(** A challenge that is stored: by get_pow, as the master told. *)
Lemma pl_issue_at ls t es s tr tr1 n o m tr2 :
  pl_run ls (po_init t) es = Some (s, tr) -> tr = tr1 ++ o :: tr2 -> pl_issues o = Some (n, m) ->
  exists i, LoCall n i (CGetPow (cp_key m)) ∈ tr1 /\
    pl_requests n tr1 =
      [PeVisit (cp_key m) (An (Ok (Some (AddVisitorResult (cp_duration m) (cp_difficulty_factor m))))); PeDraw (cp_string m)].
Proof.
  intros Hr E Ho.
  assert (exists i p p' a, pl_follows ls tr1 n i p /\ p_step p (PeCachePoW m a) = Some p') as (i & p & p' & a & (c0 & Hc & Hu & Hp) & Hst).
  { destruct o as [|n' e| | |n' m' r| | |]; try discriminate Ho.
    - destruct e as [| |m' [| |a]| | | | |]; try discriminate Ho. injection Ho as -> ->.
      destruct (pl_did_at _ _ _ _ _ _ _ _ _ Hr E) as (i & p & p' & h & h' & Hf & _ & [Hst _ _]). eauto 10.
    - destruct m' as [m'| | | |]; try discriminate Ho. injection Ho as -> ->.
      destruct (pl_late_at _ _ _ _ _ _ _ _ _ _ Hr E) as [(i & p & Hf & Hp) _]. destruct p; try discriminate Hp.
      injection Hp as ->. exists i, (PCachePoW m k), (k AnClosed), AnClosed. split; [done|]. cbn. by rewrite decide_True. }
  assert (p_run (program (pl_salt (ls i)) c0) (pl_requests n tr1 ++ [PeCachePoW m a]) = Some p') as Hp'
    by (by eapply p_run_snoc).
  destruct (before_issue _ _ _ _ _ _ Hp') as (v & -> & Hes & _). exists i. split; [done|].
  rewrite Hes in Hp'. cbn in Hp'. rewrite decide_True in Hp' by done. cbn in Hp'. case_decide as Hm; [|done].
  rewrite Hes. repeat f_equal. rewrite <- Hm. by destruct v.
Qed.

(** The cache up to a request, and its answer. *)
Lemma pl_talk_at ls t es s tr tr1 n e tr2 m r :
  pl_run ls (po_init t) es = Some (s, tr) -> tr = tr1 ++ LoDid n e :: tr2 -> cache_talk e = Some (m, Some r) ->
  exists h h', cache_run (cache_start t) (pool_cache tr1).*1 = Some (h, (pool_cache tr1).*2) /\
    cache_step h (HeMsg m) = Some (h', Some r).
Proof.
  intros Hr E Ht. destruct (pl_did_at _ _ _ _ _ _ _ _ _ Hr E) as (i & p & p' & h & h' & _ & Hc & [_ Hh _]).
  rewrite Ht in Hh. eexists _, (CacheSys (pool_clock t tr1) h'). split; [exact Hc|]. cbn. by rewrite Hh.
Qed.
(** A split of what the cache saw is a split of the trace. *)
Lemma pool_cache_split tr pre e post : (pool_cache tr).*1 = pre ++ e :: post ->
  exists tra o r trb, tr = tra ++ o :: trb /\ cache_seen o = Some (e, r) /\ (pool_cache tra).*1 = pre /\ (pool_cache trb).*1 = post.
Proof.
  revert pre. induction tr as [|o tr IH]; intros pre E; [by destruct pre|].
  change (pool_cache (o :: tr)) with (match cache_seen o with Some x => x :: pool_cache tr | None => pool_cache tr end) in E.
  destruct (cache_seen o) as [[e0 r0]|] eqn:Eo.
  - destruct pre as [|e1 pre]; injection E as -> E.
    + by exists [], o, r0, tr.
    + apply IH in E as (tra & o' & r & trb & -> & H1 & H2 & H3). exists (o :: tra), o', r, trb.
      split; [done|]. split; [done|]. split; [|done].
      change (pool_cache (o :: tra)) with (match cache_seen o with Some x => x :: pool_cache tra | None => pool_cache tra end).
      rewrite Eo. cbn. by rewrite H2.
  - apply IH in E as (tra & o' & r & trb & -> & H1 & H2 & H3). exists (o :: tra), o', r, trb.
    split; [done|]. split; [done|]. split; [|done].
    change (pool_cache (o :: tra)) with (match cache_seen o with Some x => x :: pool_cache tra | None => pool_cache tra end).
    by rewrite Eo.
Qed.
Lemma seen_store o m r : cache_seen o = Some (HeMsg (HmCacheResult m), r) ->
  (exists n, pl_stores o = Some (n, m)) \/ (exists r', o = LoOther (HmCacheResult m) r').
Proof.
  destruct o as [|n e| | |n m' r'|m' r'| |]; try done; cbn.
  - destruct e as [| |m' []|m' []| | |m' []|m' []]; try done. intros [= -> _]. left. eauto.
  - intros [= -> _]. left. eauto.
  - intros [= -> _]. right. eauto.
Qed.
Lemma seen_issue o m r : cache_seen o = Some (HeMsg (HmCachePoW m), r) ->
  (exists n, pl_issues o = Some (n, m)) \/ (exists r', o = LoOther (HmCachePoW m) r').
Proof.
  destruct o as [|n e| | |n m' r'|m' r'| |]; try done; cbn.
  - destruct e as [| |m' []|m' []| | |m' []|m' []]; try done. intros [= -> _]. left. eauto.
  - intros [= -> _]. left. eauto.
  - intros [= -> _]. right. eauto.
Qed.
(** Stores always succeed. *)
Lemma stored_ok ls t es s tr tr1 n e tr2 m r :
  pl_run ls (po_init t) es = Some (s, tr) -> tr = tr1 ++ LoDid n e :: tr2 -> cache_talk e = Some (m, Some (HrUnit r)) -> r = Ok tt.
Proof.
  intros Hr E Ht. destruct (pl_talk_at _ _ _ _ _ _ _ _ _ _ _ Hr E Ht) as (h & h' & _ & Hs).
  destruct m as [m|m|m|m|d]; cbn in Hs; repeat case_match; by simplify_eq.
Qed.
(** A call asks the cache for each kind of thing at most once. *)
Lemma pl_did_live ls t es s tr tr1 n e tr2 :
  pl_run ls (po_init t) es = Some (s, tr) -> tr = tr1 ++ LoDid n e :: tr2 -> n ∉ (lates tr1).*1.
Proof.
  intros Hr E. destruct (pl_run_at _ _ _ _ _ _ _ _ Hr E) as (es1 & s1 & ev & s2 & H1 & H2).
  pose proof (run_plinv _ _ _ _ _ H1) as Hi.
  destruct ev as [i c|m x|m|m|m|j|m|due d|d]; cbn [pl_step] in H2; try done.
  - destruct (po_calls s1 !! m) as [[i p]|] eqn:En; [|done].
    destruct (pl_respond _ _ _ _ _) as [[[h p'] e']|] eqn:Er; [|done]. injection H2 as _ -> ->.
    destruct (plinv_live _ _ _ _ _ _ _ Hi En) as (_ & _ & _ & Hna).
    intros ([n' m'] & -> & Hx)%elem_of_list_fmap. apply (Hna m'). apply elem_of_app. by right.
  - destruct (po_calls s1 !! m) as [[i [r| | | | | | | |]]|]; done.
  - by destruct (po_calls s1 !! m) as [[i p]|].
  - destruct (po_calls s1 !! m) as [[i p]|]; [|done]. by destruct (pending p).
  - destruct (po_late s1 !! j) as [[n' m']|]; [|done]. by destruct (hc_handle _ _ m').
  - by destruct (hc_handle _ _ m).
  - by destruct (hc_expire _ _ due d).
Qed.
Definition pl_asks (o : plout) : option (nat * cache_msg) :=
  match o with
  | LoDid n e => match cache_talk e with Some (m, _) => Some (n, m) | None => None end
  | LoLate n m _ => Some (n, m)
  | _ => None
  end.
Definition same_kind (m1 m2 : cache_msg) : Prop :=
  match m1, m2 with
  | HmCachePoW _, HmCachePoW _ | HmRetrivePoW _, HmRetrivePoW _
  | HmCacheResult _, HmCacheResult _ | HmVerifyCaptchaResult _, HmVerifyCaptchaResult _ => True
  | _, _ => False
  end.
Lemma before_retrieve salt c es m a p : p_run (program salt c) (es ++ [PeRetrieve m a]) = Some p -> es = [].
Proof.
  destruct c as [id|w ip|m'].
  - intros H. exfalso. cbn [program] in H. destruct es as [|[id' x|x|m' x|m' x|ip' q x|q b|m' x|m' x] es]; try discriminate H.
    cbn in H. case_decide; [|done]. destruct x as [| |[[v|]|e]]; try (by apply p_run_ret in H as [H _]; destruct es).
    destruct es as [|[id'' x|x|m' x|m' x|ip' q x|q b|m' x|m' x] es]; try discriminate H. cbn in H.
    destruct es as [|[id'' y|y|m' y|m' y|ip' q y|q b|m' y|m' y] es]; try discriminate H. cbn in H.
    case_decide; [|done]. destruct y as [| |[[]|e]]; by apply p_run_ret in H as [H _]; destruct es.
  - intros H. cbn [program] in H. destruct es as [|[id' x|x|m' x|m' x|ip' q x|q b|m' x|m' x] es]; try discriminate H; [done|exfalso].
    cbn in H. case_decide; [subst m'|done].
    destruct x as [| |[[c|]|e]]; try (by apply p_run_ret in H as [H _]; destruct es).
    cbn in H. case_decide; [|by apply p_run_ret in H as [H _]; destruct es].
    destruct es as [|[id' x|x|m' x|m' x|ip' q x|q b|m' x|m' x] es]; try discriminate H. cbn in H.
    case_decide; [|done]. destruct x as [[[]|e]|]; try (by apply p_run_ret in H as [H _]; destruct es).
    destruct es as [|[id' x|x|m' x|m' x|ip'' q' x|q' b|m' x|m' x] es]; try discriminate H. cbn in H.
    case_decide; [|done]. destruct b as [[]|]; try (by apply p_run_ret in H as [H _]; destruct es).
    destruct es as [|[id' x|x|m' x|m' x|ip'' q'' x|q'' b|m' x|m' x] es]; try discriminate H. cbn in H.
    destruct es as [|[id' y|y|m' y|m' y|ip'' q'' y|q'' b|m' y|m' y] es]; try discriminate H. cbn in H.
    case_decide; [|done]. destruct y as [| |[[]|e]]; by apply p_run_ret in H as [H _]; destruct es.
  - intros H. exfalso. cbn [program] in H. destruct es as [|[id' x|x|m'' x|m'' x|ip' q x|q b|m'' x|m'' x] es]; try discriminate H.
    cbn in H. case_decide; [|done]. destruct x as [| |[b|e]]; by apply p_run_ret in H as [H _]; destruct es.
Qed.
Lemma twice salt c xs e1 ys p e2 p' m1 r1 m2 r2 :
  p_run (program salt c) (xs ++ e1 :: ys) = Some p -> p_step p e2 = Some p' ->
  cache_talk e1 = Some (m1, r1) -> cache_talk e2 = Some (m2, r2) -> ~ same_kind m1 m2.
Proof.
  intros Hp Hs H1 H2. assert (Hp' : p_run (program salt c) ((xs ++ e1 :: ys) ++ [e2]) = Some p') by (by eapply p_run_snoc).
  destruct e1 as [| |x1 a1|x1 a1| | |x1 a1|x1 a1], e2 as [| |x2 a2|x2 a2| | |x2 a2|x2 a2]; try done;
    injection H1 as <- _; injection H2 as <- _; intros []; cbn.
  - apply before_issue in Hp' as (v & _ & E & _). destruct xs as [|? [|? [|? ?]]]; discriminate E.
  - apply before_retrieve in Hp'. by destruct xs.
  - apply before_store in Hp' as (w & ip & cfg & tok & _ & _ & _ & E).
    destruct xs as [|? [|? [|? [|? [|? ?]]]]]; discriminate E.
  - apply before_verify in Hp' as [E _]. by destruct xs.
Qed.
Lemma pending_step p m : pending p = Some m -> exists e p' r, p_step p e = Some p' /\ cache_talk e = Some (m, r).
Proof.
  destruct p; try done; intros [= <-];
    [exists (PeCachePoW m0 AnClosed)|exists (PeRetrieve m0 AnClosed)|exists (PeCacheResult m0 AnClosed)|exists (PeVerify m0 AnClosed)];
    cbn; rewrite decide_True by done; eauto.
Qed.
Lemma asks_once ls t es s tr tr1 o1 o2 tr2 n m1 m2 :
  pl_run ls (po_init t) es = Some (s, tr) -> tr = tr1 ++ o2 :: tr2 -> o1 ∈ tr1 ->
  pl_asks o1 = Some (n, m1) -> pl_asks o2 = Some (n, m2) -> ~ same_kind m1 m2.
Proof.
  intros Hr E Hin H1 H2.
  assert (exists i p p' e r, pl_follows ls tr1 n i p /\ p_step p e = Some p' /\ cache_talk e = Some (m2, r) /\ n ∉ (lates tr1).*1)
    as (i & p & p' & e2 & r2 & (c & _ & _ & Hp) & Hs & Ht & Hl).
  { destruct o2 as [|n' e| | |n' m' r| | |]; try discriminate H2; cbn in H2.
    - destruct (cache_talk e) as [[m' r]|] eqn:Et; [|done]. injection H2 as -> ->.
      destruct (pl_did_at _ _ _ _ _ _ _ _ _ Hr E) as (i & p & p' & h & h' & Hf & _ & [Hst _ _]).
      exists i, p, p', e, r. split_and!; try done. by eapply pl_did_live.
    - injection H2 as -> ->. destruct (pl_late_at _ _ _ _ _ _ _ _ _ _ Hr E) as [(i & p & Hf & Hp) [Hl _]].
      destruct (pending_step _ _ Hp) as (e & p' & r' & Hs & Ht). by exists i, p, p', e, r'. }
  destruct o1 as [|n' e| | |n' m' r| | |]; try discriminate H1; cbn in H1.
  - destruct (cache_talk e) as [[m' r]|] eqn:Et; [|done]. injection H1 as -> ->.
    apply pl_requests_elem, elem_of_list_split in Hin as (xs & ys & Ex). rewrite Ex in Hp. by eapply twice.
  - injection H1 as -> ->. exfalso. apply Hl. apply elem_of_list_fmap. exists (n, m1). split; [done|].
    apply elem_of_list_omap. by eexists.
Qed.
Lemma calls_once (f : plout -> option nat) (kind : cache_msg) ls t es s tr :
  (forall o n, f o = Some n -> exists m, pl_asks o = Some (n, m) /\ same_kind m kind) ->
  pl_run ls (po_init t) es = Some (s, tr) -> NoDup (omap f tr).
Proof.
  intros Hf. revert s tr. induction es as [|e es IH] using rev_ind; intros s tr Hr; [injection Hr as _ <-; constructor|].
  pose proof Hr as Hr0. apply pl_run_snoc in Hr as (s1 & tr1 & o & H1 & _ & ->). specialize (IH _ _ H1).
  rewrite omap_app. cbn. destruct (f o) as [n|] eqn:Eo; [|by rewrite app_nil_r].
  apply NoDup_app. split; [done|]. split; [|apply NoDup_singleton].
  intros n' Hin ->%elem_of_list_singleton. destruct (Hf _ _ Eo) as (m2 & H2 & K2).
  apply elem_of_list_omap in Hin as (o1 & Ho1 & E1). destruct (Hf _ _ E1) as (m1 & H1' & K1).
  apply (asks_once _ _ _ _ _ tr1 o1 o [] n m1 m2 Hr0 eq_refl Ho1 H1' H2).
  destruct m1, m2, kind; done.
Qed.
