(** Withdrawing a compiler's promises changes an outcome only into an undefined one: programs. *)
From Verif Require Import Base Mem Libc StrviewModel StrnumModel Spec NumSpec Alloc StrbufModel IoModel
  PackModel CryptModel PrnfModel PrnfBufModel BufSpec PrnfSpec HistSpec HistSpec2 ViewProg MixSpec
  UriModel ExamplesModel UriMainModel PortSpec PortView PortNum PortBuf PortPrnf.

Global Hint Transparent ret : mono.

(** ** From the relation to the claim *)
Lemma restrict_of cf1 cf2 : same_machine cf1 cf2 -> promises_more cf1 cf2 ->
  exists fw, cf1 = restrict fw cf2.
Proof.
  destruct cf1 as [s1 w1 a1 b1 p1 l1 e1 t1 n1], cf2 as [s2 w2 a2 b2 p2 l2 e2 t2 n2].
  unfold same_machine, promises_more; cbn.
  intros (-> & -> & -> & -> & ->) (W & M & C & P).
  exists (Fewer w1 a1 b1 p1). unfold restrict; cbn.
  f_equal; [destruct w1, w2|destruct a1, a2|destruct b1, b2|destruct p1, p2]; cbn; auto;
    exfalso; intuition discriminate.
Qed.

(** The compiler that promises what either does. *)
Definition join (cf1 cf2 : cfg) : cfg :=
  Cfg (c_char_signed cf1) (c_wrapv cf1 || c_wrapv cf2) (c_mem0 cf1 || c_mem0 cf2)
      (c_ctype cf1 || c_ctype cf2) (c_ptr cf1 || c_ptr cf2)
      (c_long64 cf1) (c_big_endian cf1) (c_step cf1) (c_ptrbytes cf1).

Lemma portable_of A (run : cfg -> outcome A) :
  (forall fw cf, below (run (restrict fw cf)) (run cf)) -> portable run.
Proof.
  intro B.
  assert (K : forall cf1 cf2 x, same_machine cf1 cf2 -> promises_more cf1 cf2 ->
    run cf1 = Ok x -> run cf2 = Ok x).
  { intros cf1 cf2 x S P R. destruct (restrict_of cf1 cf2 S P) as [fw ->].
    destruct (B fw cf2) as [E|[u E]]; congruence. }
  split; [exact K|].
  intros cf1 cf2 x y S R1 R2.
  assert (E1 : run (join cf1 cf2) = Ok x).
  { apply K with (cf1 := cf1); [|unfold promises_more, join; cbn|exact R1].
    - unfold same_machine, join; cbn; auto.
    - repeat split; intros ->; reflexivity. }
  assert (E2 : run (join cf1 cf2) = Ok y).
  { apply K with (cf1 := cf2); [|unfold promises_more, join; cbn|exact R2].
    - destruct S as (S1 & S2 & S3 & S4 & S5). unfold same_machine, join; cbn; auto.
    - repeat split; intros ->; apply orb_true_r. }
  congruence.
Qed.

(** ** Programs on views *)
Lemma vcall_mono fw cf m ds f s a e :
  below (vcall (restrict fw cf) m ds f s a e) (vcall cf m ds f s a e).
Proof.
  destruct f; cbn [vcall]; unfold only_view, only_bool, both; try solve [mono].
  all: repeat match goal with x : bool |- _ => destruct x | x : side |- _ => destruct x end; try solve [mono].
  destruct t; cbn [consumer]; mono.
Qed.
Global Hint Resolve vcall_mono : mono.

Lemma vexec_mono fw cf m ds vars e o :
  below (vexec (restrict fw cf) m ds vars e o) (vexec cf m ds vars e o).
Proof. unfold vexec; mono. Qed.
Global Hint Resolve vexec_mono : mono.

Lemma vrun_mono fw cf m ds : forall prog vars e,
  below (vrun (restrict fw cf) m ds vars e prog) (vrun cf m ds vars e prog).
Proof. induction prog; intros; cbn [vrun]; mono. Qed.
Global Hint Resolve vrun_mono : mono.

(** ** Programs on buffers *)
Lemma the_view_mono fw cf vars w s :
  below (the_view (restrict fw cf) vars w s) (the_view cf vars w s).
Proof. unfold the_view; mono. Qed.
Global Hint Resolve the_view_mono : mono.
Lemma the_views_mono fw cf vars w : forall ss,
  below (the_views (restrict fw cf) vars w ss) (the_views cf vars w ss).
Proof. induction ss; cbn [the_views]; mono. Qed.
Global Hint Resolve the_views_mono : mono.
Lemma call_mono vars j x y : below x y -> below (call vars j x) (call vars j y).
Proof. intros; unfold call; mono. Qed.
Lemma made_mono vars j x y : below x y -> below (made vars j x) (made vars j y).
Proof. intros; unfold made; mono. Qed.
Global Hint Resolve call_mono made_mono : mono.

Lemma exec_mono fw cf vars w o :
  below (exec (restrict fw cf) vars w o) (exec cf vars w o).
Proof. destruct o; cbn [exec]; mono. Qed.
Global Hint Resolve exec_mono : mono.

Lemma look_mono x y : below x y -> below (look x) (look y).
Proof. intros; unfold look; mono. Qed.
Global Hint Resolve look_mono : mono.
Lemma item_of_eq fw cf A : item_of (restrict fw cf) A = item_of cf A.
Proof. reflexivity. Qed.
Lemma arguments_eq fw cf D : @PrnfSpec.arguments D (restrict fw cf) = @PrnfSpec.arguments D cf.
Proof. reflexivity. Qed.
Global Hint Rewrite item_of_eq arguments_eq : mono.

Lemma xexec_mono fw cf A vars w o :
  below (xexec (restrict fw cf) A vars w o) (xexec cf A vars w o).
Proof. destruct o; cbn [xexec]; mono. Qed.
Global Hint Resolve xexec_mono : mono.

Lemma xrun_mono fw cf A : forall prog vars w,
  below (xrun (restrict fw cf) A vars w prog) (xrun cf A vars w prog).
Proof. induction prog; intros; cbn [xrun]; mono. Qed.

(** ** Programs on both *)
Lemma mexec_mono fw cf ds s o :
  below (mexec (restrict fw cf) ds s o) (mexec cf ds s o).
Proof. unfold mexec; mono. Qed.
Global Hint Resolve mexec_mono : mono.
Lemma mrun_mono fw cf ds : forall prog s,
  below (mrun (restrict fw cf) ds s prog) (mrun cf ds s prog).
Proof. induction prog; intros; cbn [mrun]; mono. Qed.

(** ** The program that splits a URI *)
Lemma cut_at_mono fw cf m u d : below (cut_at (restrict fw cf) m u d) (cut_at cf m u d).
Proof. unfold cut_at; mono. Qed.
Global Hint Resolve cut_at_mono : mono.
Lemma parse_uri_mono fw cf m u : below (parse_uri (restrict fw cf) m u) (parse_uri cf m u).
Proof. unfold parse_uri; mono. Qed.
Global Hint Resolve parse_uri_mono : mono.
Lemma show_view_mono fw cf m v : below (show_view (restrict fw cf) m v) (show_view cf m v).
Proof.
  unfold show_view. replace (c_mem0 (restrict fw cf)) with (f_mem0 fw && c_mem0 cf) by reflexivity.
  destruct (is_null (v_data v)), (f_mem0 fw), (c_mem0 cf); cbn [andb negb]; mono.
Qed.
Global Hint Resolve show_view_mono : mono.
Lemma show_part_mono fw cf m l v : below (show_part (restrict fw cf) m l v) (show_part cf m l v).
Proof. unfold show_part; mono. Qed.
Global Hint Resolve show_part_mono : mono.
Lemma show_uri_mono fw cf m u : below (show_uri (restrict fw cf) m u) (show_uri cf m u).
Proof. unfold show_uri; mono. Qed.
Global Hint Resolve show_uri_mono : mono.
Lemma show_parsed_mono fw cf m s : below (show_parsed (restrict fw cf) m s) (show_parsed cf m s).
Proof. unfold show_parsed; mono. Qed.
Global Hint Resolve show_parsed_mono : mono.
Lemma show_demos_mono fw cf m : forall l, below (show_demos (restrict fw cf) m l) (show_demos cf m l).
Proof. induction l; cbn [show_demos]; mono. Qed.
Global Hint Resolve show_demos_mono : mono.
Lemma uri_main_mono fw cf m argv : below (uri_main (restrict fw cf) m argv) (uri_main cf m argv).
Proof. unfold uri_main; mono. Qed.

(** ** The claims *)
Lemma vrun_portable m ds vars e prog : portable (fun cf => vrun cf m ds vars e prog).
Proof. apply portable_of. intros; apply vrun_mono. Qed.
Lemma xrun_portable A vars w prog : portable (fun cf => xrun cf A vars w prog).
Proof. apply portable_of. intros; apply xrun_mono. Qed.
Lemma mrun_portable ds s prog : portable (fun cf => mrun cf ds s prog).
Proof. apply portable_of. intros; apply mrun_mono. Qed.
Lemma uri_portable m argv : portable (fun cf => uri_main cf m argv).
Proof. apply portable_of. intros; apply uri_main_mono. Qed.
Lemma consume_float_portable F m dst src opt : portable (fun cf => strnum_consume_float cf F m dst src opt).
Proof. apply portable_of. intros; apply strnum_consume_float_mono. Qed.
Lemma consume_double_portable F m dst src opt : portable (fun cf => strnum_consume_double cf F m dst src opt).
Proof. apply portable_of. intros; apply strnum_consume_double_mono. Qed.
Lemma snprnf_portable A W rd wr s dst n fmt va : portable (fun cf => vsnprnf cf A W rd wr s dst n fmt va).
Proof. apply portable_of. intros; apply vsnprnf_mono. Qed.
Lemma snappf_portable A W rd wr s dst n fmt va : portable (fun cf => snappf cf A W rd wr s dst n fmt va).
Proof. apply portable_of. intros; apply snappf_mono. Qed.
