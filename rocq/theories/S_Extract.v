(** Vocabulary for the properties of extraction.  Independent of the model. *)
From Coq Require Import ZArith List.
Import ListNotations.
Open Scope Z_scope.

(** One of the components of a path, which slashes separate, is "..". *)
Definition has_dotdot (p : list Z) : Prop :=
  exists a b, p = a ++ [46; 46] ++ b /\ (a = [] \/ exists a', a = a' ++ [47]) /\ (b = [] \/ exists b', b = 47 :: b').

(** Some component is empty: the path starts with a slash or has two in a row. *)
Definition has_empty_component (p : list Z) : Prop :=
  (exists p', p = 47 :: p') \/ (exists a b, p = a ++ [47; 47] ++ b).
