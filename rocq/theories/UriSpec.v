(** What a URI text means: components and how they are written down.  Independent of
    the parser. *)
From Verif Require Import Base Mem StrviewModel Spec.

(** Components; None: absent. *)
Record comps : Type := Comps {
  k_scheme : option (list Z); k_user : option (list Z); k_host : option (list Z);
  k_port : option (list Z); k_path : option (list Z) }.

Definition before (o : option (list Z)) (sep : list Z) : list Z := match o with Some x => x ++ sep | None => [] end.
Definition after (sep : list Z) (o : option (list Z)) : list Z := match o with Some x => sep ++ x | None => [] end.

Definition COLON : Z := 58.
Definition SLASH : Z := 47.
Definition AT : Z := 64.

(** [user@]host[:port][/path] *)
Definition authority (u : comps) (h : list Z) : list Z :=
  before (k_user u) [AT] ++ h ++ after [COLON] (k_port u) ++ after [SLASH] (k_path u).

(** The 27 forms of parse-uri.c:13-39 are  scheme:[path]  and  [scheme://]authority. *)
Definition compose (u : comps) : list Z :=
  match k_host u with
  | None => before (k_scheme u) [COLON] ++ after [] (k_path u)
  | Some h => before (k_scheme u) [COLON; SLASH; SLASH] ++ authority u h
  end.

Definition lacks (c : Z) (l : list Z) : Prop := ~ In c l.
Definition all (P : list Z -> Prop) (o : option (list Z)) : Prop := forall x, o = Some x -> P x.
Definition starts_digit (l : list Z) : Prop := exists d t, l = d :: t /\ 48 <= d <= 57.
Definition no_marker (l : list Z) : Prop := forall k, ~ occurs l [COLON; SLASH; SLASH] k.

(** Components that can be told apart:  scheme:path  without host, ... *)
Definition plain (u : comps) : Prop :=
  k_host u = None /\ k_user u = None /\ k_port u = None /\
  (exists s, k_scheme u = Some s /\ lacks COLON s /\ lacks AT s) /\
  all (fun p => p <> [] /\ lacks AT p /\ ~ starts_digit p) (k_path u) /\
  no_marker (compose u).

(** ... and the forms with a host. *)
Definition hosted (u : comps) (h : list Z) : Prop :=
  k_host u = Some h /\ lacks COLON h /\ lacks SLASH h /\ lacks AT h /\
  all (lacks COLON) (k_scheme u) /\ (k_scheme u <> None -> authority u h <> []) /\
  (k_scheme u = None -> no_marker (compose u)) /\
  all (lacks AT) (k_user u) /\
  (k_user u = None -> all (lacks AT) (k_port u) /\ all (lacks AT) (k_path u)) /\
  all (fun p => starts_digit p /\ lacks SLASH p) (k_port u) /\
  (k_port u = None -> all (lacks COLON) (k_path u)).

Definition documented (u : comps) : Prop := plain u \/ exists h, hosted u h.

(** [r] is absent, or the part of [v] that holds exactly the characters [y]. *)
Definition slice (m : mem) (v : view) (l : list Z) (r : view) (o : option (list Z)) : Prop :=
  match o with
  | None => r = INVALID
  | Some y => exists x z, l = x ++ y ++ z /\ r = subview v (Zlen x) (Zlen y) /\ has_view m r y
  end.

(** What comes behind the scheme (the text up to the first colon and two more characters, if "://" occurs anywhere),
    behind the user (the text up to the first at sign), and a byte directly behind the first colon of that. *)
Definition after_scheme (l l1 : list Z) : Prop :=
  (no_marker l /\ l1 = l) \/ (~ no_marker l /\ exists a x y, l = a ++ COLON :: x :: y :: l1 /\ lacks COLON a /\ l1 <> []).
Definition after_user (l1 l2 : list Z) : Prop := (exists a, l1 = a ++ AT :: l2 /\ lacks AT a) \/ (lacks AT l1 /\ l2 = l1).
Definition behind_colon (l : list Z) (c : Z) : Prop :=
  exists l1 l2 h t, after_scheme l l1 /\ after_user l1 l2 /\ l2 = h ++ COLON :: c :: t /\ lacks COLON h.

(** Components as the grammar of URIs has them: only the path may contain separators. *)
Definition clean (l : list Z) : Prop := lacks COLON l /\ lacks SLASH l /\ lacks AT l.
Definition reasonable (u : comps) : Prop :=
  match k_host u with
  | None => k_user u = None /\ k_port u = None /\ exists s, k_scheme u = Some s /\ clean s
  | Some h => clean h /\ all clean (k_scheme u) /\ all clean (k_user u) /\ all (fun p => starts_digit p /\ clean p) (k_port u)
  end.
