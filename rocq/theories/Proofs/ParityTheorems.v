(** Proofs of the theorems of Properties/ParityProperties.v. *)
From Coq Require Import ZifyBool ZifyN ZifyNat Lia.
From Verif Require Import Model.Base Model.HashCache Model.Redis Model.RedisActor Model.RedisTokens
  Spec.CacheSpec Spec.RedisSpec Spec.ParitySpec Proofs.CacheTheorems Proofs.RedisTheorems.

Lemma uses_app t a b : uses_in t (a ++ b) = uses_in t a ++ uses_in (cache_clock t a) b.
Proof.
  revert t. induction a as [|e a IH]; intros t; [done|].
  destruct e as [[m|m|m|m|d]|d|due d]; cbn [app uses_in cache_clock]; rewrite ?IH; done.
Qed.

Lemma uses_elem t es n u : (n, u) ∈ uses_in t es ->
  HeMsg (match u with Store m => HmCacheResult m | Check m => HmVerifyCaptchaResult m end) ∈ es.
Proof.
  revert t. induction es as [|e es IH]; intros t; [by intros ?%elem_of_nil|].
  destruct e as [[m|m|m|m|d]|d|due d]; cbn [uses_in]; try (intros H; right; by eapply IH).
  - intros [[= -> ->]|H]%elem_of_cons; [by left|]. right. by eapply IH.
  - intros [[= -> ->]|H]%elem_of_cons; [by left|]. right. by eapply IH.
Qed.

Lemma elem_uses t es u :
  HeMsg (match u with Store m => HmCacheResult m | Check m => HmVerifyCaptchaResult m end) ∈ es ->
  exists n, (n, u) ∈ uses_in t es.
Proof.
  revert t. induction es as [|e es IH]; intros t; [by intros ?%elem_of_nil|].
  intros [<-|H]%elem_of_cons.
  - exists t. destruct u; by left.
  - destruct e as [[m|m|m|m|d]|d|due d]; cbn [uses_in];
      first [by apply IH | destruct (IH t H) as [n Hn]; exists n; by right].
Qed.

(** An execution splits where its uses do. *)
Lemma uses_split t es a n u b : uses_in t es = a ++ (n, u) :: b ->
  exists pre post, es = pre ++ HeMsg (match u with Store m => HmCacheResult m | Check m => HmVerifyCaptchaResult m end) :: post /\
    uses_in t pre = a /\ cache_clock t pre = n /\ uses_in n post = b.
Proof.
  revert t a. induction es as [|e es IH]; intros t a H; [by destruct a|].
  assert (Hskip : uses_in t (e :: es) = uses_in (cache_clock t [e]) es -> uses_in t [e] = [] -> exists pre post,
    e :: es = pre ++ HeMsg (match u with Store m => HmCacheResult m | Check m => HmVerifyCaptchaResult m end) :: post /\
    uses_in t pre = a /\ cache_clock t pre = n /\ uses_in n post = b).
  { intros He H0. rewrite H in He. symmetry in He. apply IH in He as (pre & post & -> & H1 & H2 & H3).
    exists (e :: pre), post. split; [done|]. change (e :: pre) with ([e] ++ pre). rewrite uses_app, H0, H1. split; [done|].
    split; [|done]. rewrite <- H2. by destruct e. }
  destruct e as [[m|m|m|m|d]|d|due d]; try (by apply Hskip); cbn [uses_in] in H; clear Hskip.
  - destruct a as [|x a].
    + injection H as -> <- H. by exists [], es.
    + injection H as <- H. apply IH in H as (pre & post & -> & H1 & H2 & H3). exists (HeMsg (HmCacheResult m) :: pre), post.
      cbn [app uses_in cache_clock]. by rewrite H1.
  - destruct a as [|x a].
    + injection H as -> <- H. by exists [], es.
    + injection H as <- H. apply IH in H as (pre & post & -> & H1 & H2 & H3). exists (HeMsg (HmVerifyCaptchaResult m) :: pre), post.
      cbn [app uses_in cache_clock]. by rewrite H1.
Qed.

Lemma in_memory_split h a x b : in_memory h = a ++ x :: b ->
  exists h1 n h2, h = h1 ++ (n, x.2) :: h2 /\ a = in_memory h1 /\ x.1 = n * 1000000 /\ b = in_memory h2.
Proof.
  unfold in_memory. intros (h1 & l & Ha & Hb & ->)%fmap_app_inv. destruct l as [|[n u] h2]; [done|].
  injection Hb as -> ->. by exists h1, n, h2.
Qed.

Lemma in_memory_elem h n u : (n, u) ∈ h -> (n * 1000000, u) ∈ in_memory h.
Proof. intros H. unfold in_memory. apply elem_of_list_fmap. by exists (n, u). Qed.

Lemma elem_in_memory h n u : (n, u) ∈ in_memory h -> exists k, n = k * 1000000 /\ (k, u) ∈ h.
Proof. unfold in_memory. intros ([k v] & [= -> ->] & H)%elem_of_list_fmap. by exists k. Qed.

Lemma c95_same_answer : forall h t es s os now token key,
  (** the same uses on both *)
  cache_run (cache_start t) es = Some (s, os) -> uses_in t es = in_memory h ->
  cache_clock t es = now * 1000000 -> Forall (fun e => ~ by_hand e) es ->
  fresh_tokens h -> right_sites h ->
  (** what Redis can hold, and names without colons *)
  no_colon key ->
  (forall n m, (n, Store m) ∈ h -> storable n (cr_duration m) /\ no_colon (cr_key m)) ->
  (forall n c, (n, Check c) ∈ h -> no_colon (vr_key c)) ->
  (** expiry messages have been delivered, and no lifetime ends just now *)
  nothing_overdue s ->
  (forall n m, (n, Store m) ∈ h -> cr_token m = token -> n + cr_duration m * 1000 <> now) ->
  exists b, validates s token key b /\
    outcome_of (on_redis h) (TokenEvent now (TkGet (VerifyCaptchaResult token key)) Answered) = Val (RoBool (Ok b)).
Proof.
  intros h t es s os now token key Hrun Hu Hnow Hhand Hfresh Hright Hkey Hst Hck Hover Hend.
  destruct (c59_own_site_only (on_redis h) now key token Hkey) as (b & Hb & Hlive).
  { unfold on_redis. apply Forall_fmap, Forall_forall. intros [n [m|c]] Hx; cbn.
    - by apply (Hst n m). - by apply (Hck n c). }
  destruct (c33_token_exact t es s os token key Hrun) as [[b' Hv] _].
  assert (Hiff : validates s token key true <-> live (fun x => x = (key, token)) now (on_redis h)).
  { split.
    - intros H. destruct (c34_token_not_after t es s os token key Hrun Hover H) as (pre & m & post & -> & Ht & Hk & Hpost & Hclock).
      rewrite uses_app in Hu. cbn [uses_in] in Hu. symmetry in Hu.
      apply in_memory_split in Hu as (h1 & n & h2 & -> & Hpre & Hn & Hp). cbn [fst snd] in *.
      exists (on_redis h1), (TokenEvent n (TkAdd m) Answered), m, (on_redis h2).
      split; [by unfold on_redis; rewrite fmap_app|]. split; [done|].
      assert (Hin : (n, Store m) ∈ h1 ++ (n, Store m) :: h2) by (apply elem_of_app; right; by left).
      split; [by split; [|apply (Hst n m)]|]. split; [by rewrite Hk, Ht|].
      split; [cbn [te_now]; rewrite Hnow, Hn in Hclock; unfold NS in Hclock; lia|].
      apply Forall_fmap, Forall_forall. intros [k u] Hx _. cbn.
      apply in_memory_elem in Hx. rewrite <- Hp in Hx. apply uses_elem in Hx.
      rewrite Forall_forall in Hpost. apply Hpost in Hx. destruct u as [m'|c]; cbn in Hx |- *.
      + case_decide; [done|]. intros [= _ ?]. done.
      + case_decide; [done|]. intros [= _ ?]. done.
    - intros (h1 & e & m & h2 & Hsplit & Hc & _ & Hsame & Hle & Hafter).
      unfold on_redis in Hsplit. apply fmap_app_inv in Hsplit as (g1 & l & Hg1 & Hg & ->). destruct l as [|[n u] g2]; [done|]. injection Hg as -> ->. cbn [fst snd te_now te_call] in *.
      destruct u as [m'|c]; [|done]. injection Hc as ->. injection Hsame as <- <-.
      unfold in_memory in Hu. rewrite fmap_app, fmap_cons in Hu. cbn [fst snd] in Hu.
      apply uses_split in Hu as (pre & post & -> & H1 & H2 & H3).
      assert (Hin : (n, Store m) ∈ g1 ++ (n, Store m) :: g2) by (apply elem_of_app; right; by left).
      apply (c34_token_not_before t pre m post s os); [| |done|].
      + apply Forall_forall. intros [[x|x|x|x|d]|d|due d] Hx; try (by intros []). cbn. intros Heq.
        apply (elem_uses t pre (Store x)) in Hx as [k Hx]. rewrite H1 in Hx.
        apply elem_in_memory in Hx as (k' & _ & Hx). apply elem_of_list_lookup in Hx as [i Hi].
        assert (Hlt : (i < length g1)%nat) by by apply lookup_lt_Some in Hi.
        assert (i = length g1); [|lia]. apply (Hfresh i (length g1) k' n x m); [|by rewrite list_lookup_middle|done].
        by rewrite lookup_app_l.
      + apply Forall_forall. intros [[x|x|x|x|d]|d|due d] Hx; cbn; try (by intros []).
        * intros Heq. apply (elem_uses (n * 1000000) post (Store x)) in Hx as [k Hx]. rewrite H3 in Hx.
          apply elem_in_memory in Hx as (k' & _ & Hx). apply elem_of_list_lookup in Hx as [i Hi].
          assert (S (length g1 + i) = length g1); [|lia].
          apply (Hfresh (S (length g1 + i)) (length g1) k' n x m); [|by rewrite list_lookup_middle|done].
          rewrite lookup_app_r by lia. replace (S (length g1 + i) - length g1)%nat with (S i) by lia. done.
        * intros Heq. apply (elem_uses (n * 1000000) post (Check x)) in Hx as [k Hx]. rewrite H3 in Hx.
          apply elem_in_memory in Hx as (k' & _ & Hx).
          assert (Hk : vr_key x = cr_key m).
          { apply (Hright n m k' x); [done| |done]. apply elem_of_app. right. by right. }
          apply (Forall_fmap _ _ g2) in Hafter. rewrite Forall_forall in Hafter. apply (Hafter _ Hx); [by split|]. cbn. by rewrite Hk, Heq.
        * rewrite Forall_forall in Hhand. destruct d as [y|y]; [by intros []|]. intros _. apply (Hhand (HeMsg (HmDelete (DeleteCaptchaResult y)))); [|done].
          apply elem_of_app. right. by right.
      + rewrite Hnow, H2. specialize (Hend n m Hin eq_refl). unfold NS. lia. }
  exists b. split; [|done]. destruct b, b'; try done.
  - apply Hiff. by apply Hlive.
  - exfalso. assert (false = true); [|done]. apply Hlive. by apply Hiff.
Qed.
