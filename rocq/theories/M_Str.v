(* String constants as bytes. *)
From Coq Require Ascii String.
From Verif Require Import Base.
Export String.StringSyntax.

Definition str (s : String.string) : bytes := map Ascii.N_of_ascii (String.list_ascii_of_string s).
Arguments str s%string_scope.
