(** Property theorems about the program parse-uri (C151). *)
From Coq Require Import String.
From Verif Require Import Base Mem Libc StrviewModel StrnumModel Spec MemLemmas StrviewProofs NumSpec ExampleLib Alloc StrbufModel ExamplesModel ExamplesSpec ExamplesProofs
  UriModel UriSpec UriProofs PropsUri UriMainModel UriMainSpec UriMainProofs.
Local Open Scope string_scope.
Local Open Scope list_scope.
Local Open Scope Z_scope.

(** ** C151 *)
(** A documented URI given as the first argument: exactly its components are shown. *)
Theorem C151_documented : forall cf m a0 a1 rest u, documented u -> c_string m a1 (compose u) -> ctype_safe cf (compose u) ->
  uri_main cf m (a0 :: a1 :: rest) = Ok (report u).
Proof.
  intros cf m a0 a1 rest u D H C. cbn [uri_main]. rewrite (show_parsed_ok cf m a1 _ H C). now rewrite (parse_compose u D).
Qed.
Print Assumptions C151_documented.
(** Any argument: the components parse_uri reports are shown, unless isdigit() is undefined (C85_exact). *)
Theorem C151_any_argument : forall cf m a0 a1 rest l, c_string m a1 l ->
  (c_ctype cf = false /\ c_char_signed cf = true /\ (exists c, behind_colon l c /\ 128 <= c < 255) /\ uri_main cf m (a0 :: a1 :: rest) = UB UB_ctype) \/
  exists r u, parse_uri cf m (View a1 (Zlen l)) = Ok r /\ parses_to m r u /\ uri_main cf m (a0 :: a1 :: rest) = Ok (report u).
Proof.
  intros cf m a0 a1 rest l H. pose proof H as (_ & Hb & _). destruct (cstr_ok m a1 l H) as [_ V]. cbn [uri_main]. rewrite (show_parsed_exact cf m a1 l H).
  pose proof (parse_exact cf m _ l V) as K. pose proof (outside_iff cf l Hb) as O. destruct (outside_ctype cf (asked l)).
  - left. destruct (proj1 O eq_refl) as (X1 & X2 & X3). auto.
  - right. destruct K as (r & Er & S1 & S2 & S3 & S4 & S5). exists r, (parse_list l). split; auto. split; auto.
    repeat (split; [eapply slice_denotes; eauto|]). eapply slice_denotes; eauto.
Qed.
Print Assumptions C151_any_argument.
(** What is shown tells the URI: two documented URIs with the same output are the same text. *)
Theorem C151_output_tells : forall cf m a0 a1 b0 b1 r1 r2 u1 u2, documented u1 -> documented u2 -> one_line u1 -> one_line u2 ->
  c_string m a1 (compose u1) -> c_string m b1 (compose u2) -> ctype_safe cf (compose u1) -> ctype_safe cf (compose u2) ->
  uri_main cf m (a0 :: a1 :: r1) = uri_main cf m (b0 :: b1 :: r2) -> u1 = u2.
Proof.
  intros cf m a0 a1 b0 b1 r1 r2 u1 u2 D1 D2 L1 L2 H1 H2 C1 C2 E.
  rewrite (C151_documented cf m a0 a1 r1 u1 D1 H1 C1), (C151_documented cf m b0 b1 r2 u2 D2 H2 C2) in E. injection E as E. now apply report_inj.
Qed.
Print Assumptions C151_output_tells.
(** Without arguments: the 27 forms of the comment at the top of the file, each with its components. *)
Theorem C151_demo : forall cf m a0 l0, c_string m a0 l0 ->
  uri_main cf m [a0] = Ok (concat (map (fun u => bs "[" ++ compose u ++ bs "]" ++ [NL] ++ report u) forms) ++
    bs "To run with a custom string use " ++ l0 ++ bs " <string>" ++ [NL]).
Proof.
  intros cf m a0 l0 (B & _ & N & _). cbn [uri_main hd]. rewrite (show_demos_ok cf m demo_string eq_refl). cbn [bind].
  rewrite (show_cstr_ok m a0 l0 B), (upto_nul_id l0 N). cbn [bind]. rewrite demo_forms. reflexivity.
Qed.
Print Assumptions C151_demo.

Definition arg_mem : mem := [blk 4096 (bs "parse-uri" ++ [0]); blk 8192 (compose u_full ++ [0])].
Example C151_ex : documented u_full /\ one_line u_full /\ c_string arg_mem (Ptr (PBlk 1) 0) (compose u_full) /\ ctype_safe iso64 (compose u_full)
  /\ c_string arg_mem (Ptr (PBlk 0) 0) (bs "parse-uri") /\ length forms = 27%nat
  /\ uri_main iso64 arg_mem [Ptr (PBlk 0) 0; Ptr (PBlk 1) 0] =
     Ok (bs "scheme = ""http""" ++ [10] ++ bs "host   = ""github.com""" ++ [10] ++ bs "path   = ""home/a:b@c://d""" ++ [10] ++
         bs "user   = ""mickjc750""" ++ [10] ++ bs "port   = ""80""" ++ [10; 10]).
Proof.
  split; [exact (proj1 C82_ex)|]. split; [repeat split; intros x E; injection E as <-; lack|]. split; [cstr_check|].
  split; [right; right; apply Forall_forall; intros c Hc; left; revert c Hc; apply Forall_forall; vm_compute; repeat constructor|]. split; [cstr_check|].
  split; [reflexivity|]. vm_compute. reflexivity.
Qed.
