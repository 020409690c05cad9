(** Properties of random strings. *)
From Coq Require Import Ascii.
From Coq Require Import ZifyBool ZifyN ZifyNat Lia.
From Verif Require Import Model.Base Model.Utils Spec.UtilsSpec Proofs.UtilsProofs.
From Verif Require Export Proofs.UtilsTheorems.

(** C58 *)
Theorem C58_length_and_alphabet : forall len draws s rest,
  get_random len draws = Some (s, rest) ->
  String.length s = len /\ Forall alnum (chars s) /\ ~ (":"%char ∈ chars s) /\
  exists used, draws = used ++ rest.
Proof. exact c58_length_and_alphabet. Qed.
Print Assumptions C58_length_and_alphabet.

(** It ends as soon as the generator has produced enough usable words. *)
Theorem C58_terminates : forall len draws,
  (exists s rest, get_random len draws = Some (s, rest)) <->
  (len <= length (List.filter (fun d => bool_decide (usable d)) draws))%nat.
Proof. exact get_random_enough. Qed.
Print Assumptions C58_terminates.

(** Every alphanumeric string can come out. *)
Theorem C58_every_string : forall s, Forall alnum (chars s) ->
  exists draws, Forall word draws /\ length draws = String.length s /\
    get_random (String.length s) draws = Some (s, []).
Proof. exact get_random_all. Qed.
Print Assumptions C58_every_string.

(** Every character is selected by exactly 2^26 of the 2^32 words. *)
Theorem C58_even_odds : forall c, alnum c ->
  exists lo, lo + 67108864 <= 4294967296 /\
    forall d, lo <= d < lo + 67108864 <-> get_random 1 [d] = Some (String c EmptyString, []).
Proof. exact c58_even_odds. Qed.
Print Assumptions C58_even_odds.

(** No string is likelier than another: the sequences of words that give one
    correspond one to one to those that give the other, equally long, with the same
    words left over. *)
Theorem C58_uniform : forall s1 s2, String.length s1 = String.length s2 ->
  Forall alnum (chars s1) -> Forall alnum (chars s2) ->
  exists f : list N -> list N,
    (forall draws, f (f draws) = draws /\ length (f draws) = length draws /\ (Forall word draws -> Forall word (f draws))) /\
    forall draws rest, get_random (String.length s1) draws = Some (s1, rest) <->
                       get_random (String.length s1) (f draws) = Some (s2, rest).
Proof. exact c58_uniform. Qed.
Print Assumptions C58_uniform.

Example C58_witness :
  get_random 3 [0; 4294967295; 67108864; 4160749567; 5] = Some ("AB9"%string, [5]) /\
  alnum "9"%char /\ ~ usable 4294967295.
Proof. split; [by vm_compute|]. split; [|by vm_compute]. left. vm_compute. split; done. Qed.
