(** Proofs about the program parse-uri. *)
From Coq Require Import String.
From Verif Require Import Base Mem Libc StrviewModel StrnumModel Spec MemLemmas StrviewProofs NumSpec ExampleLib Alloc StrbufModel ExamplesModel ExamplesSpec ExamplesProofs
  UriModel UriSpec UriProofs UriMainModel UriMainSpec.
Local Open Scope list_scope.
Local Open Scope Z_scope.

Lemma slice_in : forall m v l r y, slice m v l r (Some y) -> incl y l.
Proof. intros m v l r y (x & z & -> & _) c H. apply in_or_app. right. apply in_or_app. now left. Qed.

Lemma chars_app : forall a b, chars (a ++ b)%string = chars a ++ chars b.
Proof. induction a as [|c a IH]; intros b; cbn [chars String.append app]; [reflexivity|]. now rewrite IH. Qed.

Lemma show_part_ok : forall cf m v l name r o, ~ In 0 l -> slice m v l r o -> show_part cf m (name ++ " = ")%string r = Ok (line name o).
Proof.
  intros cf m v l name r o N S. unfold show_part. rewrite (slice_valid _ _ _ _ _ S). destruct o as [y|]; [|reflexivity].
  pose proof (slice_in _ _ _ _ _ S) as I. destruct S as (x & z & _ & _ & H). rewrite (show_view_ok cf m r y H). cbn [bind line].
  rewrite upto_nul_id by (intro K; apply N; now apply I). rewrite chars_app, <- app_assoc. reflexivity.
Qed.

Lemma show_uri_ok : forall cf m v l r u, ~ In 0 l -> slices m v l r u -> show_uri cf m r = Ok (report u).
Proof.
  intros cf m v l r u N (S1 & S2 & S3 & S4 & S5). unfold show_uri.
  change ("scheme = ")%string with ("scheme" ++ " = ")%string. change ("host   = ")%string with ("host  " ++ " = ")%string.
  change ("path   = ")%string with ("path  " ++ " = ")%string. change ("user   = ")%string with ("user  " ++ " = ")%string.
  change ("port   = ")%string with ("port  " ++ " = ")%string.
  erewrite !show_part_ok by eassumption. cbn [bind]. reflexivity.
Qed.

Lemma show_parsed_ok : forall cf m p l, c_string m p l -> ctype_safe cf l -> show_parsed cf m p = Ok (report (parse_list l)).
Proof.
  intros cf m p l H C. pose proof H as (_ & _ & N & _). destruct (cstr_ok m p l H) as [E V]. unfold show_parsed. rewrite E. cbn [bind].
  destruct (parse_ok cf m _ l V C) as (r & Er & S). rewrite Er. cbn [bind]. eapply show_uri_ok; eauto.
Qed.

Lemma show_parsed_exact : forall cf m p l, c_string m p l ->
  show_parsed cf m p = if outside_ctype cf (asked l) then UB UB_ctype else Ok (report (parse_list l)).
Proof.
  intros cf m p l H. pose proof H as (_ & _ & N & _). destruct (cstr_ok m p l H) as [E V]. unfold show_parsed. rewrite E. cbn [bind].
  pose proof (parse_exact cf m _ l V) as K. destruct (outside_ctype cf (asked l)); [now rewrite K|].
  destruct K as (r & Er & S). rewrite Er. cbn [bind]. eapply show_uri_ok; eauto.
Qed.

(** ** The demo strings *)
Definition ascii_text (l : list Z) : bool := forallb (fun c => (1 <=? c) && (c <? 128)) l && (Zlen l <=? 100).
Lemma ascii_lit : forall m l, ascii_text l = true -> c_string m (lit l) l /\ forall cf, ctype_safe cf l.
Proof.
  intros m l H. apply andb_true_iff in H as [H L]. apply Z.leb_le in L. rewrite forallb_forall in H.
  assert (forall c, In c l -> 1 <= c < 128) as K by (intros c Hc; specialize (H c Hc); apply andb_true_iff in H as [A B]; apply Z.leb_le in A; apply Z.ltb_lt in B; lia).
  split.
  - apply lit_cstring; [|intro Z0; specialize (K _ Z0); lia|unfold INT_MAX; lia]. apply Forall_forall. intros c Hc. specialize (K c Hc). unfold is_byte. lia.
  - intros cf. right. right. apply Forall_forall. intros c Hc. left. apply K in Hc. lia.
Qed.

Definition demo_out (l : list Z) : list Z := [91] ++ l ++ [93; 10] ++ report (parse_list l).
Lemma show_demos_ok : forall cf m ls, forallb ascii_text ls = true -> show_demos cf m ls = Ok (concat (map demo_out ls)).
Proof.
  intros cf m. induction ls as [|l ls IH]; intros H; [reflexivity|]. cbn [forallb] in H. apply andb_true_iff in H as [H1 H2].
  cbn [show_demos map concat]. destruct (ascii_lit m l H1) as [C S]. pose proof C as (B & _ & N & _).
  rewrite (show_cstr_ok m (lit l) l B), (upto_nul_id l N). cbn [bind]. rewrite (show_parsed_ok cf m _ l C (S cf)). cbn [bind].
  rewrite (IH H2). cbn [bind]. unfold demo_out. now rewrite <- !app_assoc.
Qed.

(** ** Different components give different reports *)
Lemma split_nl : forall x1 x2 r1 r2, lacks NL x1 -> lacks NL x2 -> x1 ++ QUOTE :: NL :: r1 = x2 ++ QUOTE :: NL :: r2 -> x1 = x2 /\ r1 = r2.
Proof.
  intros x1 x2 r1 r2 L1 L2 E. assert (forall x, lacks NL x -> lacks NL (x ++ [QUOTE])) as K.
  { intros x L H. apply in_app_or in H as [H|[H|[]]]; [auto|discriminate H]. }
  change (QUOTE :: NL :: r1) with ([QUOTE] ++ NL :: r1) in E. change (QUOTE :: NL :: r2) with ([QUOTE] ++ NL :: r2) in E. rewrite !app_assoc in E.
  pose proof (cut_found NL (x1 ++ [QUOTE]) r1 (K x1 L1)) as C1. rewrite E, (cut_found NL _ r2 (K x2 L2)) in C1.
  injection C1 as E1 E2. apply app_inj_tail in E1 as [E1 _]. auto.
Qed.

Lemma line_cancel : forall name o1 o2 r1 r2, all (lacks NL) o1 -> all (lacks NL) o2 -> name <> EmptyString ->
  (forall t, r1 <> bs name ++ t) -> (forall t, r2 <> bs name ++ t) ->
  line name o1 ++ r1 = line name o2 ++ r2 -> o1 = o2 /\ r1 = r2.
Proof.
  intros name [x1|] [x2|] r1 r2 L1 L2 _ N1 N2 E; cbn [line app] in E; auto.
  - rewrite <- !app_assoc in E. apply app_inv_head in E. apply app_inv_head in E. cbn [app] in E. injection E as E.
    rewrite <- !app_assoc in E. destruct (split_nl x1 x2 r1 r2 (L1 _ eq_refl) (L2 _ eq_refl) E) as [-> ->]. auto.
  - exfalso. rewrite <- app_assoc in E. now apply (N2 _ (eq_sym E)).
  - exfalso. rewrite <- app_assoc in E. now apply (N1 _ E).
Qed.

Lemma report_inj : forall u1 u2, one_line u1 -> one_line u2 -> report u1 = report u2 -> u1 = u2.
Proof.
  intros [s1 us1 h1 po1 pa1] [s2 us2 h2 po2 pa2] (A1 & A2 & A3 & A4 & A5) (B1 & B2 & B3 & B4 & B5) E. unfold report in E.
  cbn [k_scheme k_user k_host k_port k_path] in *.
  apply line_cancel in E as [-> E]; auto; [|discriminate|destruct h1, pa1, us1, po1; discriminate|destruct h2, pa2, us2, po2; discriminate].
  apply line_cancel in E as [-> E]; auto; [|discriminate|destruct pa1, us1, po1; discriminate|destruct pa2, us2, po2; discriminate].
  apply line_cancel in E as [-> E]; auto; [|discriminate|destruct us1, po1; discriminate|destruct us2, po2; discriminate].
  apply line_cancel in E as [-> E]; auto; [|discriminate|destruct po1; discriminate|destruct po2; discriminate].
  apply line_cancel in E as [-> _]; auto; discriminate.
Qed.

Lemma demo_forms : map demo_out demo_string = map (fun u => [91] ++ compose u ++ [93; 10] ++ report u) forms.
Proof. vm_compute. reflexivity. Qed.
Lemma demo_texts : demo_string = map compose forms.
Proof. vm_compute. reflexivity. Qed.
