(** What the program parse-uri is to print. *)
From Coq Require Import String.
From Verif Require Import Base Mem StrviewModel Spec UriSpec ExampleLib.
Local Open Scope list_scope.
Local Open Scope Z_scope.

Definition NL : Z := 10.
Definition QUOTE : Z := 34.

(** One line for every component that is present, and an empty line. *)
Definition line (name : string) (o : option (list Z)) : list Z :=
  match o with Some x => bs name ++ bs " = " ++ QUOTE :: x ++ [QUOTE; NL] | None => [] end.
Definition report (u : comps) : list Z :=
  line "scheme" (k_scheme u) ++ line "host  " (k_host u) ++ line "path  " (k_path u) ++ line "user  " (k_user u) ++ line "port  " (k_port u) ++ [NL].

(** Components on one line each. *)
Definition one_line (u : comps) : Prop :=
  all (lacks NL) (k_scheme u) /\ all (lacks NL) (k_user u) /\ all (lacks NL) (k_host u) /\ all (lacks NL) (k_port u) /\ all (lacks NL) (k_path u).

(** The 27 forms of parse-uri.c:13-39 with the names used there. *)
Definition forms : list comps :=
  [ Comps (Some (bs "http")) None None None None; Comps (Some (bs "http")) None None None (Some (bs "home"));
    Comps (Some (bs "http")) None None None (Some (bs "home/fred")) ] ++
  concat (map (fun s => concat (map (fun po => concat (map (fun us => map (fun pa =>
    Comps s us (Some (bs "github.com")) po pa) [None; Some (bs "path"); Some (bs "home/fred")])
    [None; Some (bs "mickjc750")])) [None; Some (bs "80")])) [Some (bs "http"); None]).
