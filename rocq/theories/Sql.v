(** The parts of SQLite used by the stores: [LIKE] and [ORDER BY timestamp DESC]. This models
    the documented behaviour of SQLite, not code of the repository. *)
From stdpp Require Import strings list.
From Coq Require Import ZArith Ascii.

(** Characters of a UTF-8 text, each as the string of its bytes: a continuation byte
    (10xxxxxx) belongs to the character before it. *)
Definition is_cont (a : ascii) : bool :=
  let n := N_of_ascii a in (128 <=? n)%N && (n <? 192)%N.
Definition starts_cont (s : string) : bool :=
  match s with String a _ => is_cont a | EmptyString => false end.
Fixpoint chars (s : string) : list string :=
  match s with
  | EmptyString => []
  | String a s =>
      match chars s with
      | c :: cs => if starts_cont c then String a c :: cs else String a EmptyString :: c :: cs
      | [] => [String a EmptyString]
      end
  end.

(** ASCII lower case. *)
Definition lower (a : ascii) : ascii :=
  let n := N_of_ascii a in
  if (65 <=? n)%N && (n <=? 90)%N then ascii_of_N (n + 32) else a.
Definition same_char (x c : string) : bool :=
  String.eqb x c ||
  match x, c with
  | String a EmptyString, String b EmptyString => Ascii.eqb (lower a) (lower b)
  | _, _ => false
  end.

(** [text LIKE pattern]: [%] stands for any text, [_] for any character, and ASCII letters
    match in either case (the default of SQLite). *)
Fixpoint like_chars (p : list string) : list string → bool :=
  match p with
  | [] => λ s, match s with [] => true | _ => false end
  | x :: p =>
      if String.eqb x "%" then
        fix any s := like_chars p s || match s with [] => false | _ :: s => any s end
      else if String.eqb x "_" then
        λ s, match s with [] => false | _ :: s => like_chars p s end
      else
        λ s, match s with [] => false | c :: s => same_char x c && like_chars p s end
  end.
Definition like (text pattern : string) : bool := like_chars (chars pattern) (chars text).

(** [unit_id LIKE format!("{}%", prefix)], as used by all stores. *)
Definition like_prefix (prefix u : string) : bool := like u (prefix +:+ "%").
