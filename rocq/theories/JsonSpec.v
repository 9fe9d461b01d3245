(** JSON texts, RFC 8259 (ECMA-404): which bytes are one and what it says.  Numbers and strings are represented by their spelling. *)
From Verif Require Import Base.

Inductive json := JNull | JTrue | JFalse | JNumber (spelling : bytes) | JString (spelling : bytes) | JArray (items : list json) | JObject (members : list (bytes * json)).

(** White space: space, tab, line feed, carriage return. *)
Definition White (s : bytes) : Prop := Forall (fun c => In c [ch 32; ch 9; ch 10; ch 13]) s.

(** Numbers: optional minus, digits without a leading zero, fraction, exponent. *)
Definition Digit (c : byte) : Prop := 48 <= nat_of_ascii c <= 57.
Definition Digits (s : bytes) : Prop := s <> [] /\ Forall Digit s.
Inductive Number : bytes -> Prop :=
| number : forall minus whole frac exp, minus = [] \/ minus = B "-" -> Digits whole -> (whole = B "0" \/ hd (ch 0) whole <> ch 48) ->
    (frac = [] \/ exists d, Digits d /\ frac = B "." ++ d) ->
    (exp = [] \/ exists e sign d, (e = B "e" \/ e = B "E") /\ (sign = [] \/ sign = B "+" \/ sign = B "-") /\ Digits d /\ exp = e ++ sign ++ d) ->
    Number (minus ++ whole ++ frac ++ exp).

(** What is between the quotes of a string: no control characters, no quotes, and a backslash only in an escape. *)
Definition Hex (c : byte) : Prop := Digit c \/ 65 <= nat_of_ascii c <= 70 \/ 97 <= nat_of_ascii c <= 102.
Inductive Spelling : bytes -> Prop :=
| spelling_end : Spelling []
| spelling_plain : forall c s, 32 <= nat_of_ascii c -> c <> ch 34 -> c <> ch 92 -> Spelling s -> Spelling (c :: s)
| spelling_escape : forall c s, In c (ch 34 :: B "\/bfnrt") -> Spelling s -> Spelling (ch 92 :: c :: s)
| spelling_unicode : forall a b c d s, Hex a -> Hex b -> Hex c -> Hex d -> Spelling s -> Spelling (ch 92 :: ch 117 :: a :: b :: c :: d :: s).
Definition quoted (s : bytes) : bytes := [ch 34] ++ s ++ [ch 34].

Inductive Value : json -> bytes -> Prop :=
| value_null : Value JNull (B "null")
| value_true : Value JTrue (B "true")
| value_false : Value JFalse (B "false")
| value_number : forall s, Number s -> Value (JNumber s) s
| value_string : forall s, Spelling s -> Value (JString s) (quoted s)
| value_no_items : forall w, White w -> Value (JArray []) (B "[" ++ w ++ B "]")
| value_array : forall vs s, Items vs s -> Value (JArray vs) (B "[" ++ s ++ B "]")
| value_no_members : forall w, White w -> Value (JObject []) (B "{" ++ w ++ B "}")
| value_object : forall ms s, Members ms s -> Value (JObject ms) (B "{" ++ s ++ B "}")
with Items : list json -> bytes -> Prop :=
| items_last : forall v s w1 w2, White w1 -> Value v s -> White w2 -> Items [v] (w1 ++ s ++ w2)
| items_more : forall v s w1 w2 vs r, White w1 -> Value v s -> White w2 -> Items vs r -> Items (v :: vs) (w1 ++ s ++ w2 ++ B "," ++ r)
with Members : list (bytes * json) -> bytes -> Prop :=
| members_last : forall k v s w1 w2 w3 w4, White w1 -> Spelling k -> White w2 -> White w3 -> Value v s -> White w4 ->
    Members [(k, v)] (w1 ++ quoted k ++ w2 ++ B ":" ++ w3 ++ s ++ w4)
| members_more : forall k v s w1 w2 w3 w4 ms r, White w1 -> Spelling k -> White w2 -> White w3 -> Value v s -> White w4 -> Members ms r ->
    Members ((k, v) :: ms) (w1 ++ quoted k ++ w2 ++ B ":" ++ w3 ++ s ++ w4 ++ B "," ++ r).

(** A whole text. *)
Definition Json (v : json) (s : bytes) : Prop := exists w1 t w2, White w1 /\ Value v t /\ White w2 /\ s = w1 ++ t ++ w2.
