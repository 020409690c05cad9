(** Model of /repo/src/utils.rs: random strings. *)
From Coq Require Import Ascii.
From Verif Require Import Model.Base.

(** [rand::distr::Alphanumeric] (library): its 62 characters. *)
Definition charset : string := "ABCDEFGHIJKLMNOPQRSTUVWXYZabcdefghijklmnopqrstuvwxyz0123456789".
(** Its sampling: words of 32 random bits are drawn until the top six bits are
    an index into the charset. [draws] is what the generator will produce;
    [None]: it does not produce enough. *)
Fixpoint sample (draws : list N) : option (ascii * list N) :=
  match draws with
  | [] => None
  | d :: rest =>
      match String.get (N.to_nat (N.shiftr d 26)) charset with
      | Some c => Some (c, rest)
      | None => sample rest
      end
  end.
(** utils.rs:21-33 [get_random]. *)
Fixpoint get_random (len : nat) (draws : list N) : option (string * list N) :=
  match len with
  | O => Some (EmptyString, draws)
  | S n =>
      match sample draws with
      | Some (c, rest) =>
          match get_random n rest with
          | Some (s, rest') => Some (String c s, rest')
          | None => None
          end
      | None => None
      end
  end.
