(** Proofs of the theorems of Properties/UtilsProperties.v. *)
From Coq Require Import Ascii.
From Coq Require Import ZifyBool ZifyN ZifyNat Lia.
From Verif Require Import Model.Base Model.Utils Spec.UtilsSpec Proofs.UtilsProofs.

Lemma c58_length_and_alphabet : forall len draws s rest,
  get_random len draws = Some (s, rest) ->
  String.length s = len /\ Forall alnum (chars s) /\ ~ (":"%char ∈ chars s) /\
  exists used, draws = used ++ rest.
Proof.
  intros len draws s rest H. destruct (get_random_some _ _ _ _ H) as (used & Hd & Hc & Hl).
  assert (Ha : Forall alnum (chars s)) by (rewrite Hc; apply omap_alnum).
  split_and!; [|done| |eauto].
  - rewrite <- Hl. clear. induction s as [|c s IH]; [done|]. cbn. by rewrite IH.
  - intros Hin. rewrite Forall_forall in Ha. specialize (Ha _ Hin). unfold alnum in Ha. vm_compute in Ha.
    destruct Ha as [[H1 H2]|[[H1 H2]|[H1 H2]]]; by try apply H1; try apply H2.
Qed.

Lemma c58_even_odds : forall c, alnum c ->
  exists lo, lo + 67108864 <= 4294967296 /\
    forall d, lo <= d < lo + 67108864 <-> get_random 1 [d] = Some (String c EmptyString, []).
Proof.
  intros c Hc. exists (index_of c * 67108864). pose proof (index_get c Hc) as [_ Hi]. split; [lia|].
  intros d. pose proof (pick_exact d c Hc) as He. cbn [get_random]. rewrite sample_step. split.
  - intros H. by rewrite (proj2 He) by lia.
  - intros H. cbn [sample] in H. destruct (pick d) as [c'|] eqn:E; [|done]. injection H as ->. pose proof (proj1 He eq_refl). lia.
Qed.

Lemma c58_uniform : forall s1 s2, String.length s1 = String.length s2 ->
  Forall alnum (chars s1) -> Forall alnum (chars s2) ->
  exists f : list N -> list N,
    (forall draws, f (f draws) = draws /\ length (f draws) = length draws /\ (Forall word draws -> Forall word (f draws))) /\
    forall draws rest, get_random (String.length s1) draws = Some (s1, rest) <->
                       get_random (String.length s1) (f draws) = Some (s2, rest).
Proof.
  intros s1 s2 Hl H1 H2. exists (exchange (zip (chars s1) (chars s2))). pose proof (zip_alnums _ _ H1 H2) as Hz. split.
  - intros draws. split; [by apply exchange_inv|]. split; [apply exchange_length|]. by apply exchange_words.
  - intros draws rest. by apply exchange_random_iff.
Qed.
