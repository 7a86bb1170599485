(** Model of the texts written and read by serde_json 1.0.149 (Cargo.toml:26): [to_string],
    [to_string_pretty], [from_str] and [from_reader]. Texts are lists of bytes. Definitions only. *)
From stdpp Require Import strings list.
From Coq Require Import ZArith Ascii DecimalString.
Local Open Scope bool_scope.
Local Open Scope char_scope.
Local Open Scope list_scope.

(** A number with a fraction or an exponent, or one that does not fit in 64 bits, is kept as it is
    written. *)
Inductive json :=
  | JNull | JBool (b : bool) | JInt (z : Z) | JDec (t : list ascii) | JString (s : string)
  | JArray (l : list json) | JObject (l : list (string * json)).

(** * Writing *)

Definition quote : ascii := """".
Definition backslash : ascii := "\".
Definition newline : ascii := "010".
Definition hex_digit (n : N) : ascii := ascii_of_N (if (n <? 10)%N then 48 + n else 87 + n).
(** Escapes of a byte of a string. *)
Definition escape (c : ascii) : list ascii :=
  if Ascii.eqb c quote then [backslash; quote]
  else if Ascii.eqb c backslash then [backslash; backslash]
  else if Ascii.eqb c "008" then [backslash; "b"]
  else if Ascii.eqb c "012" then [backslash; "f"]
  else if Ascii.eqb c newline then [backslash; "n"]
  else if Ascii.eqb c "013" then [backslash; "r"]
  else if Ascii.eqb c "009" then [backslash; "t"]
  else if (N_of_ascii c <? 32)%N then [backslash; "u"; "0"; "0"; hex_digit (N_of_ascii c / 16); hex_digit (N_of_ascii c mod 16)]
  else [c].
Definition write_string (s : string) : list ascii := quote :: mjoin (escape <$> list_ascii_of_string s) ++ [quote].
Definition write_nat (n : N) : list ascii := list_ascii_of_string (NilEmpty.string_of_uint (N.to_uint n)).
Definition write_int (z : Z) : list ascii := if (z <? 0)%Z then "-" :: write_nat (Z.abs_N z) else write_nat (Z.abs_N z).
(** The start of a line in the pretty format; nothing in the compact one. *)
Definition gap (pretty : bool) (n : nat) : list ascii := if pretty then newline :: replicate (2 * n) " " else [].
Definition after_key (pretty : bool) : list ascii := if pretty then [":"; " "] else [":"].
Fixpoint write (pretty : bool) (n : nat) (j : json) : list ascii :=
  match j with
  | JNull => ["n"; "u"; "l"; "l"]
  | JBool true => ["t"; "r"; "u"; "e"]
  | JBool false => ["f"; "a"; "l"; "s"; "e"]
  | JInt z => write_int z
  | JDec t => t
  | JString s => write_string s
  | JArray [] => ["["; "]"]
  | JArray (x :: l) =>
      "[" :: gap pretty (S n) ++ write pretty (S n) x ++
      (fix go l := match l with [] => gap pretty n ++ ["]"] | y :: l => "," :: gap pretty (S n) ++ write pretty (S n) y ++ go l end) l
  | JObject [] => ["{"; "}"]
  | JObject ((k, x) :: l) =>
      "{" :: gap pretty (S n) ++ write_string k ++ after_key pretty ++ write pretty (S n) x ++
      (fix go l := match l with
                   | [] => gap pretty n ++ ["}"]
                   | (k, y) :: l => "," :: gap pretty (S n) ++ write_string k ++ after_key pretty ++ write pretty (S n) y ++ go l
                   end) l
  end.
Definition to_text (pretty : bool) (j : json) : string := string_of_list_ascii (write pretty 0 j).

(** * Reading *)

Definition is_space (c : ascii) : bool := Ascii.eqb c " " || Ascii.eqb c newline || Ascii.eqb c "009" || Ascii.eqb c "013".
Fixpoint skip (s : list ascii) : list ascii :=
  match s with c :: r => if is_space c then skip r else s | [] => [] end.
Definition is_digit (c : ascii) : bool := (48 <=? N_of_ascii c)%N && (N_of_ascii c <=? 57)%N.
(** Four digits after a backslash and a u. *)
Definition hex_value (c : ascii) : option N :=
  let n := N_of_ascii c in
  if is_digit c then Some (n - 48)%N
  else if (97 <=? n)%N && (n <=? 102)%N then Some (n - 87)%N
  else if (65 <=? n)%N && (n <=? 70)%N then Some (n - 55)%N else None.
Definition hex4 (a b c d : ascii) : option N :=
  a ← hex_value a; b ← hex_value b; c ← hex_value c; d ← hex_value d; Some (4096 * a + 256 * b + 16 * c + d)%N.
(** The bytes of a character. *)
Definition utf8 (n : N) : list ascii :=
  (if n <? 128 then [ascii_of_N n]
   else if n <? 2048 then [ascii_of_N (192 + n / 64); ascii_of_N (128 + n mod 64)]
   else if n <? 65536 then [ascii_of_N (224 + n / 4096); ascii_of_N (128 + n / 64 mod 64); ascii_of_N (128 + n mod 64)]
   else [ascii_of_N (240 + n / 262144); ascii_of_N (128 + n / 4096 mod 64); ascii_of_N (128 + n / 64 mod 64); ascii_of_N (128 + n mod 64)])%N.
Definition short_escape (c : ascii) : option ascii :=
  if Ascii.eqb c quote then Some quote else if Ascii.eqb c backslash then Some backslash else if Ascii.eqb c "/" then Some "/"%char
  else if Ascii.eqb c "b" then Some "008" else if Ascii.eqb c "f" then Some "012" else if Ascii.eqb c "n" then Some newline
  else if Ascii.eqb c "r" then Some "013" else if Ascii.eqb c "t" then Some "009" else None.
Definition put (x : list ascii) (r : option (list ascii * list ascii)) : option (list ascii * list ascii) :=
  r ← r; Some (x ++ r.1, r.2).
(** The bytes of a string after its first quote, and what follows it. *)
Fixpoint read_chars (s : list ascii) : option (list ascii * list ascii) :=
  match s with
  | [] => None
  | c :: s =>
      if Ascii.eqb c quote then Some ([], s)
      else if Ascii.eqb c backslash then
        match s with
        | [] => None
        | e :: s =>
            match short_escape e with
            | Some x => put [x] (read_chars s)
            | None =>
                if Ascii.eqb e "u" then
                  match s with
                  | h1 :: h2 :: h3 :: h4 :: s =>
                      match hex4 h1 h2 h3 h4 with
                      | None => None
                      | Some n =>
                          if (55296 <=? n)%N && (n <? 56320)%N then
                            match s with
                            | b :: u :: g1 :: g2 :: g3 :: g4 :: s =>
                                if Ascii.eqb b backslash && Ascii.eqb u "u" then
                                  match hex4 g1 g2 g3 g4 with
                                  | Some m => if (56320 <=? m)%N && (m <? 57344)%N then put (utf8 (65536 + (n - 55296) * 1024 + (m - 56320))%N) (read_chars s) else None
                                  | None => None
                                  end
                                else None
                            | _ => None
                            end
                          else if (56320 <=? n)%N && (n <? 57344)%N then None
                          else put (utf8 n) (read_chars s)
                      end
                  | _ => None
                  end
                else None
            end
        end
      else if (N_of_ascii c <? 32)%N then None
      else put [c] (read_chars s)
  end.

Definition number_char (c : ascii) : bool := is_digit c || Ascii.eqb c "-" || Ascii.eqb c "+" || Ascii.eqb c "." || Ascii.eqb c "e" || Ascii.eqb c "E".
Fixpoint span (p : ascii → bool) (s : list ascii) : list ascii * list ascii :=
  match s with c :: r => if p c then let '(a, b) := span p r in (c :: a, b) else ([], s) | [] => ([], []) end.
(** The digits of a number without leading zeros. *)
Definition read_nat (s : list ascii) : option N :=
  match s with
  | [] => None
  | "0" :: _ :: _ => None
  | _ => n ← NilEmpty.uint_of_string (string_of_list_ascii s); Some (N.of_uint n)
  end.
Definition fits (z : Z) : bool := (- 2 ^ 63 <=? z)%Z && (z <? 2 ^ 64)%Z.
Definition some_digits (s : list ascii) : bool := match s with [] => false | _ => forallb is_digit s end.
Definition unsigned_tail (s : list ascii) : bool :=
  some_digits (match s with c :: r => if Ascii.eqb c "+" || Ascii.eqb c "-" then r else s | [] => s end).
(** What follows the digits before the point. *)
Definition decimal_tail (s : list ascii) : bool :=
  match s with
  | c :: r =>
      if Ascii.eqb c "." then
        let '(a, b) := span is_digit r in
        some_digits a && match b with [] => true | e :: r => (Ascii.eqb e "e" || Ascii.eqb e "E") && unsigned_tail r end
      else (Ascii.eqb c "e" || Ascii.eqb c "E") && unsigned_tail r
  | [] => false
  end.
(** A number of which all characters were read. *)
Definition read_number (t : list ascii) : option json :=
  let '(neg, s) := match t with "-" :: s => (true, s) | _ => (false, t) end in
  let '(a, b) := span is_digit s in
  n ← read_nat a;
  match b with
  | [] =>
      let z := if (neg : bool) then (- Z.of_N n)%Z else Z.of_N n in
      Some (if fits z && negb (neg && (n =? 0)%N) then JInt z else JDec t)
  | _ => if decimal_tail b then Some (JDec t) else None
  end.

Inductive parsed (A : Type) := Parsed (a : A) (rest : list ascii) | Malformed | NoFuel.
Arguments Parsed {_} _ _. Arguments Malformed {_}. Arguments NoFuel {_}.
Definition starts_with (w s : list ascii) : option (list ascii) := if decide (take (length w) s = w) then Some (drop (length w) s) else None.
Definition keyword (s : list ascii) : parsed json :=
  match starts_with ["n"; "u"; "l"; "l"] s with Some r => Parsed JNull r | None =>
  match starts_with ["t"; "r"; "u"; "e"] s with Some r => Parsed (JBool true) r | None =>
  match starts_with ["f"; "a"; "l"; "s"; "e"] s with Some r => Parsed (JBool false) r | None => Malformed end end end.
(** [d] is the remaining depth: entering an array or an object at depth 1 is an error. This reader
    builds a value of the whole text, while serde_json fills in the data on the way and does not
    count the depth of fields it ignores. *)
Fixpoint read_value (fuel d : nat) (s : list ascii) {struct fuel} : parsed json :=
  match fuel with
  | 0 => NoFuel
  | S fuel =>
      match skip s with
      | [] => Malformed
      | c :: r =>
          if Ascii.eqb c quote then
            match read_chars r with Some (x, r) => Parsed (JString (string_of_list_ascii x)) r | None => Malformed end
          else if Ascii.eqb c "[" then
            match d with
            | S (S d) =>
                match skip r with
                | "]" :: r => Parsed (JArray []) r
                | _ => match read_elements fuel (S d) r with Parsed l r => Parsed (JArray l) r | Malformed => Malformed | NoFuel => NoFuel end
                end
            | _ => Malformed
            end
          else if Ascii.eqb c "{" then
            match d with
            | S (S d) =>
                match skip r with
                | "}" :: r => Parsed (JObject []) r
                | _ => match read_fields fuel (S d) r with Parsed l r => Parsed (JObject l) r | Malformed => Malformed | NoFuel => NoFuel end
                end
            | _ => Malformed
            end
          else if is_digit c || Ascii.eqb c "-" then
            let '(t, r) := span number_char (c :: r) in
            match read_number t with Some j => Parsed j r | None => Malformed end
          else keyword (c :: r)
      end
  end
with read_elements (fuel d : nat) (s : list ascii) {struct fuel} : parsed (list json) :=
  match fuel with
  | 0 => NoFuel
  | S fuel =>
      match read_value fuel d s with
      | Malformed => Malformed
      | NoFuel => NoFuel
      | Parsed x r =>
          match skip r with
          | [] => Malformed
          | c :: r =>
              if Ascii.eqb c "," then
                match read_elements fuel d r with Parsed l r => Parsed (x :: l) r | Malformed => Malformed | NoFuel => NoFuel end
              else if Ascii.eqb c "]" then Parsed [x] r else Malformed
          end
      end
  end
with read_fields (fuel d : nat) (s : list ascii) {struct fuel} : parsed (list (string * json)) :=
  match fuel with
  | 0 => NoFuel
  | S fuel =>
      match skip s with
      | [] => Malformed
      | c :: r =>
          if Ascii.eqb c quote then
            match read_chars r with
            | None => Malformed
            | Some (k, r) =>
                match skip r with
                | [] => Malformed
                | c :: r =>
                    if Ascii.eqb c ":" then
                      match read_value fuel d r with
                      | Malformed => Malformed
                      | NoFuel => NoFuel
                      | Parsed x r =>
                          match skip r with
                          | [] => Malformed
                          | c :: r =>
                              if Ascii.eqb c "," then
                                match read_fields fuel d r with Parsed l r => Parsed ((string_of_list_ascii k, x) :: l) r | Malformed => Malformed | NoFuel => NoFuel end
                              else if Ascii.eqb c "}" then Parsed [(string_of_list_ascii k, x)] r else Malformed
                          end
                      end
                    else Malformed
                end
            end
          else Malformed
      end
  end.
(** The depth of serde_json is 128. Nothing but spaces may follow. *)
Inductive text_value := Value (j : json) | NotJson | TextOutOfFuel.
Definition of_text (text : string) : text_value :=
  let s := list_ascii_of_string text in
  match read_value (2 + 2 * length s) 128 s with
  | Parsed j r => match skip r with [] => Value j | _ => NotJson end
  | Malformed => NotJson
  | NoFuel => TextOutOfFuel
  end.
