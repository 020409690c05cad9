(** Specification vocabulary for random strings. *)
From Coq Require Import Ascii.
From Verif Require Import Model.Base.

Definition alnum (c : ascii) : Prop :=
  let n := N_of_ascii c in 48 <= n <= 57 \/ 65 <= n <= 90 \/ 97 <= n <= 122.
(** A word of random bits that selects some character: its top six bits are below 62. *)
Definition usable (d : N) : Prop := d / 67108864 < 62.
Global Instance usable_dec d : Decision (usable d).
Proof. unfold usable. apply _. Defined.
Definition chars (s : string) : list ascii := list_ascii_of_string s.
(** A word of 32 bits. *)
Definition word (d : N) : Prop := d < 4294967296.
