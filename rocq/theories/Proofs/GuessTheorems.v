(** Proofs of the theorems of Properties/GuessProperties.v. *)
From Coq Require Import Ascii.
From Coq Require Import ZifyBool ZifyN ZifyNat Lia.
From Verif Require Import Model.Base Model.Defense Model.MCaptcha Model.Counter Model.Master
  Model.HashCache Model.Queue Model.Pow Model.System Model.Utils
  Spec.UtilsSpec Spec.SystemSpec Spec.GuessSpec Proofs.UtilsProofs Proofs.SystemHistory Proofs.GuessProofs Proofs.SystemTheorems.

Lemma c114_blind : forall p l now gc wk ql adversary k,
  exists log, length log = k /\
    forall secret, secret ∉ guesses log -> (game p l (sys_start now gc wk ql) adversary secret k).2 = log.
Proof.
  intros. destruct (common_game p l (sys_start now gc wk ql) adversary eq_refl eq_refl k) as (log & [H _] & Hl).
  exists log. split; [done|]. intros d Hd. by apply H.
Qed.

Lemma c114_odds : forall p l now gc wk ql adversary k q secrets,
  (forall secret, (length (remove_dups (guesses (game p l (sys_start now gc wk ql) adversary secret k).2)) <= q)%nat) ->
  NoDup secrets ->
  (forall secret, secret ∈ secrets -> secret ∈ guesses (game p l (sys_start now gc wk ql) adversary secret k).2) ->
  (length secrets <= q)%nat.
Proof.
  intros p l now gc wk ql A k q secrets Hq Hn Hs.
  destruct (c114_blind p l now gc wk ql A k) as (log & _ & Hl).
  pose proof (Hq (fresh (guesses log))) as Hf. rewrite (Hl _ (infinite_is_fresh (guesses log))) in Hf.
  etrans; [|exact Hf]. apply submseteq_length, NoDup_submseteq; [done|].
  intros x Hx. apply elem_of_remove_dups. destruct (decide (x ∈ guesses log)) as [|Hx']; [done|].
  exfalso. apply Hx'. rewrite <- (Hl x Hx') at 1. by apply Hs.
Qed.

Lemma c114_drawn : forall p l now gc wk ql es s tr, s_run p l (sys_start now gc wk ql) es = Some (s, tr) ->
  let drew := drew p l (sys_start now gc wk ql) es in
  (forall n cfg, returned tr n (RGetPow (Ok (Some cfg))) -> drew false n (pc_string cfg)) /\
  (forall n tok f, returned tr n (RVerifyPow (Ok (tok, f))) -> drew true n tok) /\
  (forall n x, verified tr n x -> exists n0, drew false n0 x) /\
  (forall n tok key, validated tr n tok key -> exists n0, drew true n0 tok).
Proof.
  intros p l now gc wk ql es s tr Hr. destruct (run_drew p l (sys_start now gc wk ql) es s tr eq_refl Hr) as [_ Ho]. cbv zeta. split_and!.
  - intros n cfg H. by apply (Ho _ _ _ _ H).
  - intros n tok f H. by apply (Ho _ _ _ _ H).
  - intros n x H. destruct (c51_at_most_once _ _ _ _ _ _ _ _ _ x [n] Hr) as [Hl _].
    + apply NoDup_singleton.
    + by constructor.
    + destruct (issuers x tr) as [|n0 r] eqn:E; [cbn in Hl; lia|]. assert (Hi : n0 ∈ issuers x tr) by (rewrite E; left).
      apply elem_of_issuers in Hi as (m & r0 & Hi & Hm). exists n0. apply (Ho _ _ _ _ Hi). cbn. by rewrite Hm.
  - intros n tok key H. destruct (c52_right_site _ _ _ _ _ _ _ _ _ _ _ _ Hr H) as (n0 & w & ip & c & r & tr1 & tr2 & tr3 & E & _).
    exists n0. eapply Ho; [rewrite E; apply elem_of_app; right; left|done].
Qed.
