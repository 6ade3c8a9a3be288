(** Texts for the examples in PropsGrammar.v. *)
From Coq Require Import String.
From Verif Require Import Base PyValue GrainObj.
Local Open Scope list_scope.

(** Every escape, both cases of the hexadecimal digits, a pair of surrogates, a lone one and a name that comes twice. *)
Definition gr_text : str :=
  [9] ++ $"{ ""a"" :[ -0,10 , null,true ],""b"":{ }," ++ [13; 10] ++ $"""a"": ""\/\""\\\b\f\n\r\t\u00eF\uD83D\udE00\ud800A"" } ".
Definition gr_value : pv :=
  PDict [($"a", PStr [47; 34; 92; 8; 12; 10; 13; 9; 0xef; 0x1F600; 0xd800; 65]); ($"b", PDict [])].
(** Texts that are none: a leading zero, a comma too many, a control character, a bad escape, half an escape after a high surrogate, two values, nothing. *)
Definition gr_bad : list str :=
  [$"01"; $"[1,]"; $"{""a"":1,}"; 34 :: 10 :: [34]; $"""\x"""; $"""\ud800\u00"""; $"1 2"; $" "; $"-"; $"nul"; $"'a'"; $"{1:2}"; $"[1"; $"{""a"" 1}"; $"""a"].
(** A payload by another program. *)
Definition gr_payload : str := $" {""data"": [{""pre"":1,""path"":""p\u00e9"",""x"":[]}],""topic"":null,""topic"":""t"" ,""type"":""k""}".
