(** * The grammar of JSON texts, after RFC 8259 *)

From Coq Require Import String Ascii NArith ZArith List.
From Verif Require Import Base MinMax Json JsonText SpecJsonText.
Import ListNotations.
Set Implicit Arguments.
Local Open Scope list_scope.

(** Section 2: space, tab, line feed, carriage return *)
Definition blank (s : chars) : Prop := forall c, In c s -> In (N_of_ascii c) [32; 9; 10; 13]%N.

(** ** Section 7: strings *)

Definition hex_digit_is (c : ascii) (n : N) : Prop :=
  let a := N_of_ascii c in
  (48 <= a <= 57 /\ n = a - 48 \/ 65 <= a <= 70 /\ n = a - 55 \/ 97 <= a <= 102 /\ n = a - 87)%N.

Inductive code_unit : chars -> N -> Prop :=
| cu_make a b c d na nb nc nd :
    hex_digit_is a na -> hex_digit_is b nb -> hex_digit_is c nc -> hex_digit_is d nd ->
    code_unit [a; b; c; d] (((na * 16 + nb) * 16 + nc) * 16 + nd)%N.

(** UTF-8 (RFC 3629, section 3): the bytes of a code point *)
Inductive code_point : list N -> N -> Prop :=
| cp_1 a : (a < 128)%N -> code_point [a] a
| cp_2 a b : (a < 32 -> b < 64 -> 128 <= a * 64 + b -> code_point [192 + a; 128 + b] (a * 64 + b))%N
| cp_3 a b c : (a < 16 -> b < 64 -> c < 64 -> 2048 <= (a * 64 + b) * 64 + c ->
    code_point [224 + a; 128 + b; 128 + c] ((a * 64 + b) * 64 + c))%N
| cp_4 a b c d : (a < 8 -> b < 64 -> c < 64 -> d < 64 -> 65536 <= ((a * 64 + b) * 64 + c) * 64 + d ->
    code_point [240 + a; 128 + b; 128 + c; 128 + d] (((a * 64 + b) * 64 + c) * 64 + d))%N.

Definition high (n : N) : Prop := (55296 <= n < 56320)%N.
Definition low (n : N) : Prop := (56320 <= n < 57344)%N.

Definition short_escapes : list (ascii * N) :=
  [("""", 34); ("\", 92); ("/", 47); ("b", 8); ("f", 12); ("n", 10); ("r", 13); ("t", 9)]%char%N.

(** What is between the quotes, and the string it stands for *)
Inductive string_text : chars -> chars -> Prop :=
| st_end : string_text [] []
| st_plain c t s : (32 <= N_of_ascii c)%N -> c <> """"%char -> c <> "\"%char ->
    string_text t s -> string_text (c :: t) (c :: s)
| st_short e n t s : In (e, n) short_escapes -> string_text t s -> string_text ("\"%char :: e :: t) (ascii_of_N n :: s)
| st_code x n b t s : code_unit x n -> ~ high n -> ~ low n -> code_point b n -> string_text t s ->
    string_text ("\"%char :: "u"%char :: x ++ t) (map ascii_of_N b ++ s)
| st_pair x h y l b t s : code_unit x h -> high h -> code_unit y l -> low l ->
    code_point b (65536 + (h - 55296) * 1024 + (l - 56320))%N -> string_text t s ->
    string_text ("\"%char :: "u"%char :: x ++ "\"%char :: "u"%char :: y ++ t) (map ascii_of_N b ++ s).

(** ** Section 6: numbers *)

Definition decimal (ds : chars) : Z := fold_left (fun n c => 10 * n + (Z.of_N (N_of_ascii c) - 48))%Z ds 0%Z.

(** The integer that an optional minus sign and digits stand for, if it is one of [i64] or [u64]; -0 is not *)
Definition integer_is (sign int : chars) (z : Z) : Prop :=
  (- 2 ^ 63 <= z < 2 ^ 64)%Z /\ (sign = [] /\ z = decimal int \/ sign = ["-"%char] /\ z = (- decimal int)%Z /\ z <> 0%Z).

(** ** Sections 3 to 5: values, arrays, objects *)
Section Values.
  Variable F : floats.

  Inductive value_text : chars -> json -> Prop :=
  | vt_null : value_text (list_ascii_of_string "null") JNull
  | vt_true : value_text (list_ascii_of_string "true") (JBool true)
  | vt_false : value_text (list_ascii_of_string "false") (JBool false)
  | vt_int sign int z : number_parts sign int [] [] -> integer_is sign int z -> value_text (sign ++ int) (JInt z)
  | vt_float sign int frac exp x : number_parts sign int frac exp ->
      (frac = [] -> exp = [] -> forall z, ~ integer_is sign int z) ->
      fl_read F (sign ++ int ++ frac ++ exp) = Some x -> value_text (sign ++ int ++ frac ++ exp) (JFloat x)
  | vt_str t s : string_text t (list_ascii_of_string s) -> value_text (""""%char :: t ++ [""""%char]) (JStr s)
  | vt_arr_nil w : blank w -> value_text ("["%char :: w ++ ["]"%char]) (JArr [])
  | vt_arr t l : elements_text t l -> value_text ("["%char :: t ++ ["]"%char]) (JArr l)
  | vt_obj_nil w : blank w -> value_text ("{"%char :: w ++ ["}"%char]) (JObj [])
  | vt_obj t es : members_text t es -> value_text ("{"%char :: t ++ ["}"%char]) (JObj es)
  with elements_text : chars -> list json -> Prop :=
  | el_one a t b j : blank a -> value_text t j -> blank b -> elements_text (a ++ t ++ b) [j]
  | el_more a t b j s l : blank a -> value_text t j -> blank b -> elements_text s l ->
      elements_text (a ++ t ++ b ++ ","%char :: s) (j :: l)
  with members_text : chars -> list (string * json) -> Prop :=
  | me_one t k j : member_text t k j -> members_text t [(k, j)]
  | me_more t k j s es : member_text t k j -> members_text s es -> members_text (t ++ ","%char :: s) ((k, j) :: es)
  with member_text : chars -> string -> json -> Prop :=
  | me_make a k name b c t j d : blank a -> string_text k (list_ascii_of_string name) -> blank b ->
      blank c -> value_text t j -> blank d ->
      member_text (a ++ (""""%char :: k ++ [""""%char]) ++ b ++ ":"%char :: c ++ t ++ d) name j.

  Definition json_text (s : chars) (j : json) : Prop :=
    exists a t b, s = a ++ t ++ b /\ blank a /\ value_text t j /\ blank b.
End Values.
