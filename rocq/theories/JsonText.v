(** * JSON texts

    [serde_json::to_string] and [serde_json::from_str] as far as the text is concerned: a document ([Json.v]) is
    written as characters and read from characters.  No counterpart in /repo but the dependency (Cargo.toml 13) and
    its uses (src/thing.rs 1772, 2023; src/protocol/http.rs 72).  Texts are lists of bytes.

    Simplifications: which decimal expansion is written for a float, and which float is read for a number with a
    fraction or an exponent, are parameters.  The text of a [Thing] is first read as a document; serde_json skips
    members that nobody wants without counting their depth or looking at the range of their numbers.  In a [Thing]
    these are unknown members of a [VersionInfo] (src/thing.rs 646-654) and of a [Link] (1428-1459); the other structs
    have flattened members or are in such structs and have what is unknown to them read first. *)

From Coq Require Import String Ascii Bool NArith ZArith Decimal List.
From Coq Require Import Floats.SpecFloat.
From Verif Require Import Base MinMax Json.
Import ListNotations.
Set Implicit Arguments.
Local Open Scope string_scope.
Local Open Scope list_scope.

(** A text; no counterpart in /repo (src/thing.rs 1772). *)
Definition chars := list ascii.

(** Floats as texts, both directions; external to /repo (Cargo.toml 13). *)
Record floats := {
  fl_write : f64 -> chars;
  fl_read : chars -> option f64;
}.

(** The number of arrays and objects around a value, itself included, that are read: serde_json's limit of 128 is
    hit when the 128th is opened (Cargo.toml 13). *)
Definition depth_limit : nat := 127.

(** ** Characters *)

(** No counterpart in /repo (Cargo.toml 13). *)
Definition quote : ascii := """"%char.
(** No counterpart in /repo (Cargo.toml 13). *)
Definition backslash : ascii := "\"%char.

(** Whitespace between tokens (Cargo.toml 13) *)
Definition is_space (c : ascii) : bool :=
  let n := N_of_ascii c in (n =? 32)%N || (n =? 10)%N || (n =? 9)%N || (n =? 13)%N.

(** Cargo.toml 13 *)
Fixpoint skip (s : chars) : chars :=
  match s with
  | c :: s' => if is_space c then skip s' else s
  | [] => []
  end.

(** A hexadecimal digit, as written: lower case (Cargo.toml 13) *)
Definition hex_digit (n : N) : ascii :=
  ascii_of_N (if (n <? 10)%N then 48 + n else 87 + n)%N.

(** A hexadecimal digit, as read: either case (Cargo.toml 13) *)
Definition hex_value (c : ascii) : option N :=
  let n := N_of_ascii c in
  if (48 <=? n)%N && (n <=? 57)%N then Some (n - 48)%N
  else if (97 <=? n)%N && (n <=? 102)%N then Some (n - 87)%N
  else if (65 <=? n)%N && (n <=? 70)%N then Some (n - 55)%N
  else None.

(** Cargo.toml 13 *)
Definition hex4 (a b c d : ascii) : option N :=
  let? a := hex_value a in
  let? b := hex_value b in
  let? c := hex_value c in
  let? d := hex_value d in
  Some (4096 * a + 256 * b + 16 * c + d)%N.

(** The bytes of a code point (Cargo.toml 13) *)
Definition utf8 (n : N) : chars :=
  map ascii_of_N
    (if n <? 128 then [n]
     else if n <? 2048 then [192 + n / 64; 128 + n mod 64]
     else if n <? 65536 then [224 + n / 4096; 128 + n / 64 mod 64; 128 + n mod 64]
     else [240 + n / 262144; 128 + n / 4096 mod 64; 128 + n / 64 mod 64; 128 + n mod 64])%N.

(** ** Writing *)

(** serde_json's [ESCAPE] table (Cargo.toml 13) *)
Definition escape (c : ascii) : chars :=
  let n := N_of_ascii c in
  if (n =? 34)%N then [backslash; quote]
  else if (n =? 92)%N then [backslash; backslash]
  else if (n =? 8)%N then [backslash; "b"%char]
  else if (n =? 9)%N then [backslash; "t"%char]
  else if (n =? 10)%N then [backslash; "n"%char]
  else if (n =? 12)%N then [backslash; "f"%char]
  else if (n =? 13)%N then [backslash; "r"%char]
  else if (n <? 32)%N then [backslash; "u"; "0"; "0"; hex_digit (n / 16); hex_digit (n mod 16)]%char
  else [c].

(** Cargo.toml 13 *)
Definition w_string (s : string) : chars := quote :: flat_map escape (list_ascii_of_string s) ++ [quote].

(** Decimal digits (Cargo.toml 13) *)
Fixpoint w_uint (d : uint) : chars :=
  match d with
  | Nil => []
  | D0 d => "0"%char :: w_uint d | D1 d => "1"%char :: w_uint d | D2 d => "2"%char :: w_uint d
  | D3 d => "3"%char :: w_uint d | D4 d => "4"%char :: w_uint d | D5 d => "5"%char :: w_uint d
  | D6 d => "6"%char :: w_uint d | D7 d => "7"%char :: w_uint d | D8 d => "8"%char :: w_uint d
  | D9 d => "9"%char :: w_uint d
  end.

(** [itoa] (Cargo.toml 13) *)
Definition w_int (z : Z) : chars :=
  (if (z <? 0)%Z then ["-"%char] else []) ++ w_uint (N.to_uint (Z.abs_N z)).

(** Items with commas between (Cargo.toml 13) *)
Fixpoint commas (l : list chars) : chars :=
  match l with
  | [] => []
  | [a] => a
  | a :: l' => a ++ ","%char :: commas l'
  end.

(** [to_string]: no spaces; a float that is not finite is written as null (Cargo.toml 13). *)
Fixpoint w_json (F : floats) (j : json) : chars :=
  match j with
  | JNull => list_ascii_of_string "null"
  | JBool b => list_ascii_of_string (if b then "true" else "false")
  | JInt z => w_int z
  | JFloat x => if f64_finite x then fl_write F x else list_ascii_of_string "null"
  | JStr s => w_string s
  | JArr l => "["%char :: commas (map (w_json F) l) ++ ["]"%char]
  | JObj es => "{"%char :: commas (map (fun kv => w_string (fst kv) ++ ":"%char :: w_json F (snd kv)) es) ++ ["}"%char]
  end.

(** Cargo.toml 13; src/thing.rs 1776 *)
Definition to_text (F : floats) (j : json) : string := string_of_list_ascii (w_json F j).

(** ** Reading *)

(** A reader takes a value off the front of a text; no counterpart in /repo (Cargo.toml 13). *)
Definition reader (A : Type) := chars -> option (A * chars).

(** The escapes of one character (Cargo.toml 13) *)
Definition unescape (c : ascii) : option ascii :=
  match N_of_ascii c with
  | 34%N | 92%N | 47%N => Some c
  | 98%N => Some (ascii_of_N 8)
  | 102%N => Some (ascii_of_N 12)
  | 110%N => Some (ascii_of_N 10)
  | 114%N => Some (ascii_of_N 13)
  | 116%N => Some (ascii_of_N 9)
  | _ => None
  end.

(** What is read in front of what follows; no counterpart in /repo (Cargo.toml 13). *)
Definition before (a : chars) (o : option (chars * chars)) : option (chars * chars) :=
  option_map (fun x => (a ++ fst x, snd x)) o.

(** Halves of a pair that stands for one code point (Cargo.toml 13) *)
Definition is_high (n : N) : bool := ((55296 <=? n) && (n <=? 56319))%N.
(** Cargo.toml 13 *)
Definition is_low (n : N) : bool := ((56320 <=? n) && (n <=? 57343))%N.

(** A string after its opening quote (Cargo.toml 13) *)
Fixpoint p_string (s : chars) : option (chars * chars) :=
  match s with
  | [] => None
  | c :: s1 =>
      if Ascii.eqb c quote then Some ([], s1)
      else if Ascii.eqb c backslash then
        match s1 with
        | [] => None
        | e :: s2 =>
            match unescape e with
            | Some a => before [a] (p_string s2)
            | None =>
                if Ascii.eqb e "u" then
                  match s2 with
                  | x1 :: x2 :: x3 :: x4 :: s3 =>
                      let? n := hex4 x1 x2 x3 x4 in
                      if is_low n then None
                      else if is_high n then
                        match s3 with
                        | b :: u :: y1 :: y2 :: y3 :: y4 :: s4 =>
                            if Ascii.eqb b backslash && Ascii.eqb u "u" then
                              let? m := hex4 y1 y2 y3 y4 in
                              if is_low m then before (utf8 (65536 + 1024 * (n - 55296) + (m - 56320)))%N (p_string s4)
                              else None
                            else None
                        | _ => None
                        end
                      else before (utf8 n) (p_string s3)
                  | _ => None
                  end
                else None
            end
        end
      else if (N_of_ascii c <? 32)%N then None
      else before [c] (p_string s1)
  end.

(** A digit put in front of others (Cargo.toml 13) *)
Definition digit (c : ascii) : option (uint -> uint) :=
  match N_of_ascii c with
  | 48%N => Some D0 | 49%N => Some D1 | 50%N => Some D2 | 51%N => Some D3 | 52%N => Some D4
  | 53%N => Some D5 | 54%N => Some D6 | 55%N => Some D7 | 56%N => Some D8 | 57%N => Some D9
  | _ => None
  end.

(** The digits at the front, their value and what follows (Cargo.toml 13) *)
Fixpoint p_digits (s : chars) : chars * uint * chars :=
  match s with
  | c :: s' =>
      match digit c with
      | Some f => let '(ds, u, r) := p_digits s' in (c :: ds, f u, r)
      | None => ([], Nil, s)
      end
  | [] => ([], Nil, [])
  end.

(** A fraction: a point and digits (Cargo.toml 13) *)
Definition p_fraction (s : chars) : option (chars * chars) :=
  match s with
  | c :: s' =>
      if Ascii.eqb c "." then
        match p_digits s' with
        | ([], _, _) => None
        | (ds, _, r) => Some (c :: ds, r)
        end
      else Some ([], s)
  | [] => Some ([], [])
  end.

(** An exponent: a letter, a sign and digits (Cargo.toml 13) *)
Definition p_exponent (s : chars) : option (chars * chars) :=
  match s with
  | c :: s' =>
      if Ascii.eqb c "e" || Ascii.eqb c "E" then
        let '(sg, s2) :=
          match s' with
          | g :: s2 => if Ascii.eqb g "+" || Ascii.eqb g "-" then ([g], s2) else ([], s')
          | [] => ([], [])
          end in
        match p_digits s2 with
        | ([], _, _) => None
        | (ds, _, r) => Some (c :: sg ++ ds, r)
        end
      else Some ([], s)
  | [] => Some ([], [])
  end.

(** An integer has no leading zeros (Cargo.toml 13). *)
Definition plain (ds : chars) : bool :=
  match ds with
  | [] => false
  | [_] => true
  | c :: _ => negb (Ascii.eqb c "0")
  end.

(** A number after its sign: an integer if it is written as one and fits [i64] or [u64], a float otherwise; so is -0
    (Cargo.toml 13). *)
Definition p_unsigned (F : floats) (neg : bool) : reader json := fun s =>
  let '(ds, u, s2) := p_digits s in
  if plain ds then
    let? f := p_fraction s2 in
    let? e := p_exponent (snd f) in
    let sign := if neg then ["-"%char] else [] in
    let z := if neg then (- Z.of_N (N.of_uint u))%Z else Z.of_N (N.of_uint u) in
    match fst f, fst e with
    | [], [] =>
        if ((- 9223372036854775808 <=? z) && (z <=? 18446744073709551615))%Z && negb (neg && (z =? 0)%Z)
        then Some (JInt z, snd e)
        else let? x := fl_read F (sign ++ ds) in Some (JFloat x, snd e)
    | _, _ => let? x := fl_read F (sign ++ ds ++ fst f ++ fst e) in Some (JFloat x, snd e)
    end
  else None.

(** Cargo.toml 13 *)
Definition p_number (F : floats) : reader json := fun s =>
  match s with
  | c :: s' => if Ascii.eqb c "-" then p_unsigned F true s' else p_unsigned F false s
  | [] => None
  end.

(** A word (Cargo.toml 13) *)
Fixpoint p_word (w : chars) (s : chars) : option chars :=
  match w, s with
  | [], _ => Some s
  | a :: w', c :: s' => if Ascii.eqb a c then p_word w' s' else None
  | _, [] => None
  end.

(** The items of an array, at most [n] (Cargo.toml 13) *)
Fixpoint p_items (p : reader json) (n : nat) (s : chars) : option (list json * chars) :=
  match n with
  | O => None
  | S n =>
      let? x := p s in
      match skip (snd x) with
      | c :: r =>
          if Ascii.eqb c "," then let? l := p_items p n r in Some (fst x :: fst l, snd l)
          else if Ascii.eqb c "]" then Some ([fst x], r)
          else None
      | [] => None
      end
  end.

(** A member: a string, a colon and a value (Cargo.toml 13) *)
Definition p_member (p : reader json) : reader (string * json) := fun s =>
  match skip s with
  | c :: s1 =>
      if Ascii.eqb c quote then
        let? k := p_string s1 in
        match skip (snd k) with
        | c :: s2 =>
            if Ascii.eqb c ":" then let? x := p s2 in Some ((string_of_list_ascii (fst k), fst x), snd x) else None
        | [] => None
        end
      else None
  | [] => None
  end.

(** The members of an object, at most [n] (Cargo.toml 13) *)
Fixpoint p_members (p : reader json) (n : nat) (s : chars) : option (entries * chars) :=
  match n with
  | O => None
  | S n =>
      let? x := p_member p s in
      match skip (snd x) with
      | c :: r =>
          if Ascii.eqb c "," then let? l := p_members p n r in Some (fst x :: fst l, snd l)
          else if Ascii.eqb c "}" then Some ([fst x], r)
          else None
      | [] => None
      end
  end.

(** A value inside of which there are at most [d] more arrays and objects (Cargo.toml 13) *)
Fixpoint p_value (F : floats) (d : nat) (s : chars) : option (json * chars) :=
  match skip s with
  | [] => None
  | c :: s' =>
      if Ascii.eqb c "n" then option_map (pair JNull) (p_word (list_ascii_of_string "ull") s')
      else if Ascii.eqb c "t" then option_map (pair (JBool true)) (p_word (list_ascii_of_string "rue") s')
      else if Ascii.eqb c "f" then option_map (pair (JBool false)) (p_word (list_ascii_of_string "alse") s')
      else if Ascii.eqb c quote then
        option_map (fun x => (JStr (string_of_list_ascii (fst x)), snd x)) (p_string s')
      else if Ascii.eqb c "[" then
        match d with
        | O => None
        | S d =>
            match skip s' with
            | c :: r =>
                if Ascii.eqb c "]" then Some (JArr [], r)
                else option_map (fun x => (JArr (fst x), snd x)) (p_items (p_value F d) (length s') s')
            | [] => None
            end
        end
      else if Ascii.eqb c "{" then
        match d with
        | O => None
        | S d =>
            match skip s' with
            | c :: r =>
                if Ascii.eqb c "}" then Some (JObj [], r)
                else option_map (fun x => (JObj (fst x), snd x)) (p_members (p_value F d) (length s') s')
            | [] => None
            end
        end
      else p_number F (c :: s')
  end.

(** [from_str]: a value and nothing but space after it (Cargo.toml 13; src/thing.rs 1772) *)
Definition from_text (F : floats) (s : string) : option json :=
  let? x := p_value F depth_limit (list_ascii_of_string s) in
  match skip (snd x) with [] => Some (fst x) | _ => None end.
