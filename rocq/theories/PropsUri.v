(** Property theorems about the URI example program (C82-C85). *)
From Coq Require Import String.
From Verif Require Import Base Mem Libc StrviewModel StrnumModel Spec MemLemmas NumSpec ExampleLib UriModel UriSpec UriProofs.
Local Open Scope string_scope.
Local Open Scope list_scope.
Local Open Scope Z_scope.

(** Each component is reported as the view of its characters, absent ones as the invalid view. *)
Definition parses_to (m : mem) (r : uri) (u : comps) : Prop :=
  denotes m (u_scheme r) (k_scheme u) /\ denotes m (u_user r) (k_user u) /\ denotes m (u_host r) (k_host u) /\
  denotes m (u_port r) (k_port u) /\ denotes m (u_path r) (k_path u).

Lemma slice_denotes : forall m v l r o, slice m v l r o -> denotes m r o.
Proof. intros m v l r [y|] H; [|exact H]. now destruct H as (x & z & _ & _ & H). Qed.

(** ** C82 *)
Theorem C82_documented : forall cf m v u, documented u -> has_view m v (compose u) -> ctype_safe cf (compose u) ->
  exists r, parse_uri cf m v = Ok r /\ parses_to m r u.
Proof.
  intros cf m v u D H Hs. destruct (parse_ok cf m v (compose u) H Hs) as (r & E & S). rewrite (parse_compose u D) in S.
  exists r. split; auto. destruct S as (S1 & S2 & S3 & S4 & S5). unfold parses_to. eauto 10 using slice_denotes.
Qed.
Print Assumptions C82_documented.

(** No two documented URIs are written alike. *)
Theorem C82_unambiguous : forall u1 u2, documented u1 -> documented u2 -> compose u1 = compose u2 -> u1 = u2.
Proof. intros u1 u2 D1 D2 E. rewrite <- (parse_compose u1 D1), <- (parse_compose u2 D2). now rewrite E. Qed.
Print Assumptions C82_unambiguous.

(** Contents of the components, for the examples. *)
Definition text (m : mem) (v : view) : option (list Z) :=
  if strview_is_valid v then match load_bytes m (v_data v) (Z.to_nat (v_size v)) with Ok l => Some l | _ => None end else None.
Definition texts (m : mem) (o : outcome uri) : option comps :=
  match o with
  | Ok r => Some (Comps (text m (u_scheme r)) (text m (u_user r)) (text m (u_host r)) (text m (u_port r)) (text m (u_path r)))
  | _ => None
  end.
Definition mem_of (l : list Z) : mem := [blk 4096 (l ++ [0])].
Definition all_of (l : list Z) : view := vw 0 0 (Zlen l).

Definition u_full : comps :=
  Comps (Some (bs "http")) (Some (bs "mickjc750")) (Some (bs "github.com")) (Some (bs "80")) (Some (bs "home/a:b@c://d")).
Definition u_urn : comps := Comps (Some (bs "urn")) None None None (Some (bs "isbn:045")).

Ltac lack := unfold lacks; cbn; intuition discriminate.
Lemma marker_none : forall l, marker l = false -> no_marker l.
Proof.
  intros l H k Hk. assert (marker l = true) as E; [|congruence].
  apply occurs_marker. now exists k.
Qed.

Example C82_ex : documented u_full /\ documented u_urn /\ compose u_full = bs "http://mickjc750@github.com:80/home/a:b@c://d"
  /\ has_view (mem_of (compose u_full)) (all_of (compose u_full)) (compose u_full)
  /\ texts (mem_of (compose u_full)) (parse_uri gcc64 (mem_of (compose u_full)) (all_of (compose u_full))) = Some u_full
  /\ texts (mem_of (compose u_urn)) (parse_uri gcc64 (mem_of (compose u_urn)) (all_of (compose u_urn))) = Some u_urn.
Proof.
  split.
  { right. exists (bs "github.com"). unfold hosted. split; [reflexivity|]. split; [lack|]. split; [lack|]. split; [lack|].
    split; [intros x E; injection E as <-; lack|]. split; [discriminate|]. split; [discriminate|].
    split; [intros x E; injection E as <-; lack|]. split; [discriminate|].
    split; [|discriminate]. intros x E; injection E as <-. split; [|lack]. exists 56, [48]. split; [reflexivity|lia]. }
  split.
  { left. unfold plain. do 3 (split; [reflexivity|]). split; [exists (bs "urn"); split; [reflexivity|split; lack]|].
    split; [|apply marker_none; reflexivity]. intros x E; injection E as <-. split; [discriminate|]. split; [lack|].
    intros (d & t & E & H). injection E as <- _. lia. }
  split; [reflexivity|]. split; [view_check|]. split; vm_compute; reflexivity.
Qed.

(** The empty input and the demo strings of parse-uri.c:77-106: documented forms in both branches. *)
Example C82_ex2 : texts (mem_of (bs "http:")) (parse_uri gcc64 (mem_of (bs "http:")) (all_of (bs "http:")))
    = Some (Comps (Some (bs "http")) None None None None)
  /\ texts (mem_of (bs "github.com:80/path")) (parse_uri gcc64 (mem_of (bs "github.com:80/path")) (all_of (bs "github.com:80/path")))
    = Some (Comps None None (Some (bs "github.com")) (Some (bs "80")) (Some (bs "path"))).
Proof. split; vm_compute; reflexivity. Qed.

(** ** C83: the documented forms with any characters in the path *)
(** scheme://host/path where the path contains a colon: scheme, host and path are all wrong. *)
Theorem C83_colon_in_path_refuted : exists m v s h p r,
  lacks COLON s /\ lacks COLON h /\ lacks SLASH h /\ lacks AT h /\ lacks AT p /\
  has_view m v (s ++ [COLON; SLASH; SLASH] ++ h ++ [SLASH] ++ p) /\ parse_uri gcc64 m v = Ok r /\
  ~ denotes m (u_scheme r) (Some s) /\ ~ denotes m (u_host r) (Some h) /\ ~ denotes m (u_path r) (Some p).
Proof.
  set (t := bs "http://github.com/a:b"). exists (mem_of t), (all_of t), (bs "http"), (bs "github.com"), (bs "a:b"). eexists.
  do 5 (split; [lack|]). split; [subst t; view_check|]. split; [vm_compute; reflexivity|].
  cbn [u_scheme u_host u_path denotes]. split; [|split]; intros (_ & H & _); vm_compute in H; discriminate.
Qed.
Print Assumptions C83_colon_in_path_refuted.

(** scheme://host/path where the path contains an at sign: the host is taken for a user. *)
Theorem C83_at_in_path_refuted : exists m v s h p r,
  lacks COLON s /\ lacks COLON h /\ lacks SLASH h /\ lacks AT h /\ lacks COLON p /\
  has_view m v (s ++ [COLON; SLASH; SLASH] ++ h ++ [SLASH] ++ p) /\ parse_uri gcc64 m v = Ok r /\
  u_user r <> INVALID /\ ~ denotes m (u_host r) (Some h).
Proof.
  set (t := bs "http://medium.com/@user"). exists (mem_of t), (all_of t), (bs "http"), (bs "medium.com"), (bs "@user"). eexists.
  do 5 (split; [lack|]). split; [subst t; view_check|]. split; [vm_compute; reflexivity|].
  cbn [u_scheme u_host u_user denotes]. split; [discriminate|]. intros (_ & H & _); vm_compute in H; discriminate.
Qed.
Print Assumptions C83_at_in_path_refuted.

(** scheme:path where the path starts with a digit: reported as host and port. *)
Theorem C83_digit_path_refuted : exists m v s p r,
  lacks COLON s /\ lacks AT s /\ lacks COLON p /\ lacks AT p /\ has_view m v (s ++ [COLON] ++ p) /\ parse_uri gcc64 m v = Ok r /\
  u_scheme r = INVALID /\ u_path r = INVALID /\ u_port r <> INVALID.
Proof.
  set (t := bs "tel:5551234"). exists (mem_of t), (all_of t), (bs "tel"), (bs "5551234"). eexists.
  do 4 (split; [lack|]). split; [subst t; view_check|]. split; [vm_compute; reflexivity|]. split; [reflexivity|]. split; [reflexivity|discriminate].
Qed.
Print Assumptions C83_digit_path_refuted.

(** Exactly the documented forms are recovered, if only the path contains separators. *)
Theorem C83_exact : forall cf m v u, reasonable u -> has_view m v (compose u) -> ctype_safe cf (compose u) ->
  ((exists r, parse_uri cf m v = Ok r /\ parses_to m r u) <-> documented u).
Proof.
  intros cf m v u R H C. split; [|intros D; now apply C82_documented].
  intros (r & E & P1 & P2 & P3 & P4 & P5). destruct (parse_ok cf m v (compose u) H C) as (r' & E' & S1 & S2 & S3 & S4 & S5).
  rewrite E in E'. injection E' as <-. apply parse_inv; auto.
  assert (forall v o o', denotes m v o -> denotes m v o' -> o = o') as U.
  { clear. intros v [l|] [l'|] H1 H2; cbn [denotes] in *; auto; [f_equal; eapply StrviewProofs3.has_view_unique; eauto|subst v; destruct H1 as (N & _); apply bytes_at_nonnull in N; discriminate N|subst v; destruct H2 as (N & _); apply bytes_at_nonnull in N; discriminate N]. }
  destruct (parse_list (compose u)) as [a b c d e], u as [a' b' c' d' e']. cbn [k_scheme k_user k_host k_port k_path] in *.
  f_equal; eapply U; eauto using slice_denotes.
Qed.
Print Assumptions C83_exact.
(** In particular the path of scheme://host/path must have neither a colon nor an at sign. *)
Theorem C83_path : forall cf m v s h p, clean s -> clean h -> has_view m v (s ++ [COLON; SLASH; SLASH] ++ h ++ [SLASH] ++ p) ->
  ctype_safe cf (s ++ [COLON; SLASH; SLASH] ++ h ++ [SLASH] ++ p) ->
  ((exists r, parse_uri cf m v = Ok r /\ parses_to m r (Comps (Some s) None (Some h) None (Some p))) <-> lacks COLON p /\ lacks AT p).
Proof.
  intros cf m v s h p Cs Ch H C. set (u := Comps (Some s) None (Some h) None (Some p)).
  assert (compose u = s ++ [COLON; SLASH; SLASH] ++ h ++ [SLASH] ++ p) as E by (cbn [compose u k_host k_scheme before authority k_user k_port k_path after]; now rewrite <- app_assoc).
  rewrite <- E in H, C.
  assert (reasonable u) as R. { cbn [reasonable u k_host k_scheme k_user k_port]. split; auto. split; [intros x Ex; injection Ex as <-; auto|]. split; intros x Ex; discriminate Ex. }
  rewrite (C83_exact cf m v u R H C). destruct Cs as (S1 & S2 & S3), Ch as (H1 & H2 & H3). split.
  - intros [(X & _)|(h' & X)]; [discriminate X|]. destruct X as (X1 & _ & _ & _ & _ & _ & _ & _ & X2 & _ & X3).
    split; [apply (X3 eq_refl p eq_refl)|]. now apply (proj2 (X2 eq_refl)).
  - intros [L1 L2]. right. exists h. unfold hosted. cbn [u k_host k_scheme k_user k_port k_path]. do 4 (split; auto).
    split; [intros x Ex; injection Ex as <-; auto|]. split; [intros _; unfold authority, u; cbn [k_user k_port k_path before after app]; intros Z0; apply app_eq_nil in Z0 as [_ Z0]; discriminate Z0|].
    split; [discriminate|]. split; [intros x Ex; discriminate Ex|]. split; [intros _; split; intros x Ex; [discriminate Ex|injection Ex as <-; auto]|].
    split; [intros x Ex; discriminate Ex|]. intros _ x Ex. injection Ex as <-. auto.
Qed.
Print Assumptions C83_path.
Example C83_exact_ex : reasonable u_full /\ reasonable u_urn /\ clean (bs "http") /\ clean (bs "github.com") /\ ~ (lacks COLON (bs "a:b") /\ lacks AT (bs "a:b"))
  /\ has_view (mem_of (bs "http://github.com/a:b")) (all_of (bs "http://github.com/a:b")) (bs "http" ++ [COLON; SLASH; SLASH] ++ bs "github.com" ++ [SLASH] ++ bs "a:b").
Proof.
  split; [cbn [reasonable u_full k_host k_scheme k_user k_port]; split; [repeat split; lack|]; split; [intros x E; injection E as <-; repeat split; lack|];
    split; [intros x E; injection E as <-; repeat split; lack|]; intros x E; injection E as <-; split; [exists 56, [48]; split; [reflexivity|lia]|repeat split; lack]|].
  split; [cbn [reasonable u_urn k_host k_scheme k_user k_port]; split; [reflexivity|]; split; [reflexivity|]; exists (bs "urn"); split; [reflexivity|repeat split; lack]|].
  split; [repeat split; lack|]. split; [repeat split; lack|]. split; [intros [H _]; apply H; cbn; auto|]. view_check.
Qed.

(** ** C84: every input *)
Theorem C84_parts_of_input : forall cf m v l, has_view m v l -> ctype_safe cf l ->
  exists r s us h po pa, parse_uri cf m v = Ok r /\
    slice m v l (u_scheme r) s /\ slice m v l (u_user r) us /\ slice m v l (u_host r) h /\
    slice m v l (u_port r) po /\ slice m v l (u_path r) pa.
Proof.
  intros cf m v l H Hs. destruct (parse_ok cf m v l H Hs) as (r & E & S1 & S2 & S3 & S4 & S5).
  exists r. repeat eexists; eauto.
Qed.
Print Assumptions C84_parts_of_input.

Theorem C84_invalid : forall cf m, parse_uri cf m INVALID = Ok (Uri INVALID INVALID INVALID INVALID INVALID).
Proof. reflexivity. Qed.
Print Assumptions C84_invalid.

Example C84_ex : has_view (mem_of (bs "a:b://c@d:e")) (all_of (bs "a:b://c@d:e")) (bs "a:b://c@d:e") /\ ctype_safe iso64 (bs "a:b://c@d:e")
  /\ parse_uri iso64 (mem_of (bs "a:b://c@d:e")) (all_of (bs "a:b://c@d:e")) = Ok (Uri (vw 0 8 1) INVALID (vw 0 10 1) (vw 0 4 3) INVALID).
Proof.
  split; [view_check|]. split; [|vm_compute; reflexivity]. right. right. repeat constructor; left; lia.
Qed.

(** ** C85: strict reading of isdigit() *)
Theorem C85_ctype_refuted : exists m v l, has_view m v l /\ parse_uri iso64 m v = UB UB_ctype.
Proof.
  set (t := bs "a:" ++ [233]). exists (mem_of t), (all_of t), t. split; [subst t; view_check|]. vm_compute. reflexivity.
Qed.
Print Assumptions C85_ctype_refuted.
(** URIs of ASCII characters, in every configuration. *)
Theorem C85_ascii_partial : forall cf m v l, has_view m v l -> Forall (fun c => c < 128) l -> exists r, parse_uri cf m v = Ok r.
Proof.
  intros cf m v l V H. destruct (C84_parts_of_input cf m v l V) as (r & s & us & h & po & pa & E & _); [|eauto].
  right. right. eapply Forall_impl; [|exact H]. auto.
Qed.
Print Assumptions C85_ascii_partial.
Example C85_partial_ex : has_view (mem_of (bs "a:b://c@d:e")) (all_of (bs "a:b://c@d:e")) (bs "a:b://c@d:e") /\ Forall (fun c => c < 128) (bs "a:b://c@d:e").
Proof. split; [view_check|]. repeat constructor; lia. Qed.
(** Exactly the texts with one of the bytes 128 to 254 behind that colon are undefined in strict ISO C (with signed
    characters); all others have the components they have on every other platform. *)
Theorem C85_exact : forall cf m v l, has_view m v l ->
  (c_ctype cf = false /\ c_char_signed cf = true /\ (exists c, behind_colon l c /\ 128 <= c < 255) /\ parse_uri cf m v = UB UB_ctype)
  \/ (~ (c_ctype cf = false /\ c_char_signed cf = true /\ exists c, behind_colon l c /\ 128 <= c < 255) /\
      exists r u, parse_uri cf m v = Ok r /\ parses_to m r u /\
        forall cf', ctype_safe cf' l -> exists r', parse_uri cf' m v = Ok r' /\ parses_to m r' u).
Proof.
  intros cf m v l H. pose proof H as (_ & _ & _ & Hb). pose proof (parse_exact cf m v l H) as K. pose proof (outside_iff cf l Hb) as O.
  assert (forall r u, slices m v l r u -> parses_to m r u) as P.
  { intros r u (S1 & S2 & S3 & S4 & S5). repeat (split; [eapply slice_denotes; eauto|]). eapply slice_denotes; eauto. }
  destruct (outside_ctype cf (asked l)).
  - left. destruct (proj1 O eq_refl) as (E1 & E2 & E3). auto.
  - right. split; [intro E; apply O in E; discriminate|]. destruct K as (r & E & S). exists r, (parse_list l). split; [exact E|]. split; [auto|].
    intros cf' Hs. destruct (parse_ok cf' m v l H Hs) as (r' & E' & S'). eauto.
Qed.
Print Assumptions C85_exact.
Theorem C85_behind_colon_refuted : forall cf m v l c, c_ctype cf = false -> c_char_signed cf = true -> has_view m v l -> behind_colon l c -> 128 <= c < 255 ->
  parse_uri cf m v = UB UB_ctype.
Proof.
  intros cf m v l c E1 E2 H B E3. destruct (C85_exact cf m v l H) as [(_ & _ & _ & K)|(N & _)]; [exact K|]. destruct N. eauto.
Qed.
Print Assumptions C85_behind_colon_refuted.
Example C85_exact_ex : behind_colon (bs "http://me@host:" ++ [233; 47]) 233 /\ (forall c, behind_colon (bs "http://" ++ [233] ++ bs "@host:80/" ++ [233]) c -> c = 56)
  /\ parse_uri iso64 (mem_of (bs "http://me@host:" ++ [233; 47])) (all_of (bs "http://me@host:" ++ [233; 47])) = UB UB_ctype
  /\ parse_uri iso64 (mem_of (bs "http://" ++ [233] ++ bs "@host:80/" ++ [233])) (all_of (bs "http://" ++ [233] ++ bs "@host:80/" ++ [233]))
     = Ok (Uri (vw 0 0 4) (vw 0 9 4) (vw 0 17 1) (vw 0 7 1) (vw 0 14 2)).
Proof.
  split; [apply asked_iff; eexists; vm_compute; reflexivity|]. split; [|split; vm_compute; reflexivity].
  intros c B. apply asked_iff in B as (t & E). vm_compute in E. now injection E as <- _.
Qed.
