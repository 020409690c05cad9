(** Proofs of the theorems of Properties/RedisGuessProperties.v. *)
From Coq Require Import Ascii.
From Coq Require Import ZifyBool ZifyN ZifyNat Lia.
From Verif Require Import Model.Base Model.MCaptcha Model.HashCache Model.Pow Model.System Model.Json Model.Serde Model.Redis
  Model.RedisActor Model.RedisTokens Model.SystemProgram Model.SystemShared Model.Utils
  Spec.UtilsSpec Spec.RedisSpec Spec.ProgramSpec Spec.SharedSpec Spec.GuessSpec Spec.RedisGuessSpec
  Proofs.RedisProofs Proofs.SystemProofs Proofs.SystemHistory Proofs.ProgramProofs Proofs.SharedProofs Proofs.RedisGuessProofs
  Proofs.UtilsTheorems Proofs.SharedTheorems.

Lemma c115_odds : forall ls now adversary k q secrets,
  (forall secret, no_colon secret ->
    (length (remove_dups (rguesses (rgame ls now adversary secret k).2)) <= q)%nat) ->
  NoDup secrets -> Forall no_colon secrets ->
  (forall secret, secret ∈ secrets -> secret ∈ rguesses (rgame ls now adversary secret k).2) ->
  (length secrets <= q)%nat.
Proof.
  intros ls now A k q secrets Hq Hn Hp Hs. destruct (common_rgame ls now A k) as (log & _ & Hl).
  destruct (fresh_plain (rguesses log)) as (x & Hx & Hx'). pose proof (Hq x Hx) as Hf. rewrite (Hl _ Hx Hx') in Hf.
  etrans; [|exact Hf]. apply submseteq_length, NoDup_submseteq; [done|].
  intros y Hy. apply elem_of_remove_dups. destruct (decide (y ∈ rguesses log)) as [|Hy']; [done|].
  exfalso. apply Hy'. rewrite Forall_forall in Hp. rewrite <- (Hl y (Hp y Hy) Hy') at 1. by apply Hs.
Qed.

Lemma c115_plain : forall len draws s rest, get_random len draws = Some (s, rest) -> no_colon s.
Proof. intros len draws s rest H. by apply (c58_length_and_alphabet _ _ _ _ H). Qed.

Lemma c115_drawn : forall ls now es s tr, sh_run ls (sh_init now) es = Some (s, tr) ->
  (forall n cfg, XoRet n (RGetPow (Ok (Some cfg))) ∈ tr -> PeDraw (pc_string cfg) ∈ requests_of n tr) /\
  (forall n tok f, XoRet n (RVerifyPow (Ok (tok, f))) ∈ tr -> PeDraw tok ∈ requests_of n tr) /\
  (forall tr1 n t m f tr2, tr = tr1 ++ XoDid n t (PeVerify m (An (Ok true))) f :: tr2 ->
    exists n' i w ip cfg x, XoCall n' i (CVerifyPow w ip) ∈ tr1 /\ passes (ls i) (checked_work w cfg) /\
      PeDraw x ∈ requests_of n' tr1 /\ last_part x = last_part (vr_token m)).
Proof.
  intros ls now es s tr Hr. split_and!.
  - intros n cfg Hin. destruct (ret_at _ _ _ _ _ _ _ Hr Hin) as (i & c & Hc & Hp). destruct c as [id|w ip|m].
    + apply get_pow_ends in Hp as (x & [= <-] & v & -> & _). right. by left.
    + apply verify_pow_ends in Hp as ([x|] & [=] & _).
    + apply validate_ends in Hp as (x & [=] & _).
  - intros n tok f Hin. destruct (ret_at _ _ _ _ _ _ _ Hr Hin) as (i & c & Hc & Hp). destruct c as [id|w ip|m].
    + apply get_pow_ends in Hp as (x & [=] & _).
    + apply verify_pow_ends in Hp as ([x|] & [= <-] & cfg & -> & _). do 3 right. by left.
    + apply validate_ends in Hp as (x & [=] & _).
  - intros tr1 n t m f tr2 E. destruct (did_at _ _ _ _ _ _ _ _ _ _ _ Hr E) as (i0 & p & p' & sv & _ & Ha).
    pose proof (an_true _ _ _ _ _ _ _ _ Ha m true eq_refl) as Ht. destruct (get_true_fate _ _ _ _ Ht) as [-> Hpres].
    apply present_live in Hpres as (h1 & e & ma & h2 & Hsplit & Hcall & Heff & Hsame & _).
    destruct (omap_split _ _ _ _ _ Hsplit) as (tra & o & trb & E1 & Ho & _ & _).
    assert (exists n', stores o = Some (n', te_now e, ma)) as [n' Hst].
    { destruct o as [|n' t' ev f'| | |t' c f'|n' t' m']; cbn in Ho; try done.
      - destruct ev; try done; injection Ho as <-; cbn in Hcall; [|done]. injection Hcall as ->. exists n'. cbn.
        rewrite decide_False; [done|]. apply Heff.
      - exfalso. injection Ho as <-. cbn in Hcall. subst c. eapply (other_no_add _ _ _ _ _ t' ma f' Hr).
        rewrite E, E1. apply elem_of_app. left. apply elem_of_app. right. by left.
      - injection Ho as <-. cbn in Hcall. injection Hcall as ->. by exists n'. }
    assert (E2 : tr = tra ++ o :: (trb ++ XoDid n t (PeVerify m (An (Ok true))) Answered :: tr2)).
    { rewrite E, E1, <- app_assoc. done. }
    destruct (stored_by _ _ _ _ _ _ _ _ _ _ _ Hr E2 Hst) as (i & w & ip & cfg & tok & Hc & Hk & -> & Hpass & Hreq & Hdraw).
    unfold same_key in Hsame. cbn [fst snd cr_key cr_token] in Hsame.
    exists n', i, w, ip, cfg, tok. split; [rewrite E1; apply elem_of_app; by left|]. split; [done|]. split.
    { rewrite E1. unfold requests_of. rewrite omap_app. apply elem_of_app. by left. }
    by rewrite <- (last_part_key (w_key w) tok), Hsame, last_part_key.
Qed.
