(** Property theorems about prnf with an assertion handler that stops the program (C161). *)
From Coq Require Import String.
From Verif Require Import Base Mem Libc StrviewModel Spec MemLemmas StrviewProofs StrviewProofs3 NumSpec StrnumProofs3
  PrnfModel PrnfSpec PrnfSpec2 PrnfProofs4 PrnfProofs5 PrnfProofs9 PrnfFormat2 PrnfAssertModel PrnfAssertSpec PrnfAssertProofs
  ExampleLib BufExample PropsNum PropsBuf PropsBuf2 PropsPrnf PropsPrnf2.
Local Open Scope string_scope.
Local Open Scope list_scope.
Local Open Scope Z_scope.

(** snprnf with the handler: no count if the program was stopped. *)
Notation snprnf_a cf A := (vsnprnf_a cf A mem (fun m : mem => m) (fun _ m => m)).

(** ** Any format string and any arguments *)
(** If the program is not stopped the outcome is that of the build as shipped. *)
Theorem C161_shipped : forall cf A m dst n fmt va,
  (forall k m', snprnf_a cf A m dst n fmt va = Ok (Some k, m') -> snprnf cf A m dst n fmt va = Ok (k, m')) /\
  (forall u, snprnf_a cf A m dst n fmt va = UB u -> snprnf cf A m dst n fmt va = UB u) /\
  (forall k m', snprnf cf A m dst n fmt va = Ok (k, m') ->
     snprnf_a cf A m dst n fmt va = Ok (Some k, m') \/ exists m1, snprnf_a cf A m dst n fmt va = Ok (None, m1)).
Proof.
  intros cf A m dst n fmt va. unfold vsnprnf_a, vsnprnf.
  pose proof (core_same cf A mem (fun m : mem => m) (fun _ m => m) (Out mem 0 0 (to_int n) dst None m) fmt va) as H.
  destruct (core_prnf_a _ _ _ _ _ _ _ _) as [[[k|] o1]| |]; cbn [bind] in *; try rewrite H; cbn [bind].
  - split; [intros k0 m' E; injection E as <- <-; reflexivity|]. split; [discriminate|]. intros k0 m' E. injection E as <- <-. now left.
  - split; [discriminate|]. split; [discriminate|]. intros k m' _. right. eauto.
  - split; [discriminate|]. split; [intros u0 E; injection E as <-; reflexivity|discriminate].
  - split; [discriminate|]. split; discriminate.
Qed.
Print Assumptions C161_shipped.
(** All cases occur. *)
Example C161_shipped_ex : forall A, seen (snprnf gcc64 A row_mem xdst 20 xfmt (arguments gcc64 row)) 20 = Some (27, bs "id   -42....abc   B" ++ [0])
  /\ (let! (k, _) := snprnf_a gcc64 A row_mem xdst 20 xfmt (arguments gcc64 row) in Ok k) = Ok (Some 27)
  /\ (let! (k, _) := snprnf_a gcc64 A p_mem xdst 20 xfmt [] in Ok k) = Ok None
  /\ snprnf_a gcc64 A (xmem (bs "%d|" ++ [0]) []) xdst 20 xfmt [] = UB UB_varg.
Proof. intros A. repeat split; vm_compute; reflexivity. Qed.

(** ** Formats of supported placeholders *)
Definition supported {D} (i : item D) : Prop := match i with Other _ _ => False | _ => True end.
Lemma supported_quiet : forall cf A x (l : list (item (dbl A))), items_before cf (fun _ _ _ => False) x l -> Forall supported l -> Forall (fun i => trips A i = false) l.
Proof.
  intros cf A x. induction l as [|i l IH]; intros H Hs; [constructor|]. destruct H as (Hi & Hl & _). constructor; [|apply IH; auto; exact (Forall_inv_tail Hs)].
  pose proof (Forall_inv Hs) as K. destruct i; try reflexivity; cbn [item_ok supported] in *; tauto.
Qed.
Lemma plain_before : forall D cf F (l : list (item D)), items_ok cf F l -> items_before cf F 0 l.
Proof. intros D cf F. induction l as [|i l IH]; intros H; [exact I|]. destruct H as (H1 & H2 & H3). split; auto. Qed.
Theorem C161_supported : forall cf A m dst n fmt items va, wf_cfg cf -> 0 <= n <= INT_MAX -> plain_items cf items -> Forall supported items ->
  let t := plain cf items in let w := Z.min n (Zlen t + 1) in Zlen t < INT_MAX ->
  writable m dst w -> given m fmt items -> elsewhere dst w fmt items ->
  exists m', snprnf_a cf A m dst n fmt (arguments cf items ++ va) = Ok (Some (Zlen t), m') /\
    only_wrote m m' dst w /\ (0 < n -> bytes_at m' dst (firstn (Z.to_nat (n - 1)) t ++ [0])).
Proof.
  intros cf A m dst n fmt items va Wf Hn Hp Hs. destruct (plain_fine cf A items 0 Hp) as [P1 P2]. cbv zeta. unfold plain. rewrite <- P2.
  intros Ht Hw [G1 G2] [E1 E2]. apply vsnprnf_a_ok; auto. eapply supported_quiet; [apply plain_before; exact Hp|exact Hs].
Qed.
Print Assumptions C161_supported.
(** sprnf prints the whole text. *)
Notation sprnf_a cf A := (vsprnf_a cf A mem (fun m : mem => m) (fun _ m => m)).
Theorem C161_sprnf : forall cf A m dst fmt items va, wf_cfg cf -> plain_items cf items -> Forall supported items ->
  let t := plain cf items in let w := Zlen t + 1 in Zlen t < INT_MAX ->
  writable m dst w -> given m fmt items -> elsewhere dst w fmt items ->
  exists m', sprnf_a cf A m dst fmt (arguments cf items ++ va) = Ok (Some (Zlen t), m') /\ only_wrote m m' dst w /\ bytes_at m' dst (t ++ [0]).
Proof.
  intros cf A m dst fmt items va Wf Hp Hs t w Ht Hw Hg He. pose proof (C161_supported cf A m dst INT_MAX fmt items va Wf ltac:(unfold INT_MAX; lia) Hp Hs) as K. cbv zeta in K. fold t in K.
  assert (Z.min INT_MAX (Zlen t + 1) = Zlen t + 1) as Ew by (unfold INT_MAX in *; lia).
  assert (firstn (Z.to_nat (INT_MAX - 1)) t = t) as Ef by (apply firstn_all2; unfold Zlen, INT_MAX in *; lia).
  rewrite Ew, Ef in K. destruct (K Ht Hw Hg He) as (m' & E & O & B). exists m'. split; [exact E|]. split; auto. apply B. unfold INT_MAX. lia.
Qed.
Print Assumptions C161_sprnf.
(** What was stored, if the program was not stopped. *)
Definition seen_a (o : outcome (option Z * mem)) (n : Z) : option (option Z * list Z) :=
  match o with
  | Ok (k, m) => match load_bytes m xdst (Z.to_nat n) with Ok l => Some (k, l) | _ => None end
  | _ => None
  end.
Example C161_supported_ex : forall A, plain_items gcc64 (@row (dbl A)) /\ Forall supported (@row (dbl A)) /\ writable row_mem xdst 20
  /\ given row_mem xfmt (@row (dbl A)) /\ elsewhere xdst 20 xfmt (@row (dbl A))
  /\ seen_a (snprnf_a gcc64 A row_mem xdst 20 xfmt (arguments gcc64 row)) 20 = Some (Some 27, bs "id   -42....abc   B" ++ [0])
  /\ seen_a (sprnf_a gcc64 A row_mem xdst xfmt (arguments gcc64 row)) 28 = Some (Some 27, row_text ++ [0]).
Proof.
  intros A. split; [apply row_ok|]. split; [repeat constructor|]. split; [apply xdst_writable; lia|]. split; [apply row_given|]. split; [apply row_elsewhere|].
  split; vm_compute; reflexivity.
Qed.

(** ** The first unsupported placeholder *)
(** The program is stopped there, whatever follows in the format string and among the arguments.
    What precedes it was printed, up to the size of the array; there is no NUL yet. *)
Theorem C161_unsupported : forall cf A m dst n fmt (items : list (item (dbl A))) c x rest va, wf_cfg cf -> 0 <= n <= INT_MAX ->
  items_before cf (fun _ _ _ => False) 37 items -> Forall supported items -> conv_ok c -> meaningless x -> longer c x = false ->
  let t := plain cf items in let w := Z.min n (Zlen t + 1) in let f := format items ++ conv_text c x ++ rest in Zlen t < INT_MAX ->
  writable m dst w -> bytes_at m fmt f -> clear_of dst w fmt (Zlen f) -> Forall (item_mem m) items -> Forall (item_clear dst w) items ->
  exists m', snprnf_a cf A m dst n fmt (arguments cf items ++ va) = Ok (None, m') /\
    only_wrote m m' dst (Z.min (Z.max 0 (n - 1)) (Zlen t)) /\ bytes_at m' dst (firstn (Z.to_nat (n - 1)) t).
Proof.
  intros cf A m dst n fmt items c x rest va Wf Hn Hb Hs Hc Hx Hl. cbv zeta. destruct (before_then cf A 37 items ltac:(unfold is_byte; lia) Hb) as [P1 P2].
  unfold plain. rewrite <- (P2 0). intros Ht Hw Hf Hfc Hm Hcl.
  apply (vsnprnf_a_stop cf A m dst n fmt items (Other c x) rest va); auto.
  - eapply supported_quiet; eauto.
  - split; auto.
Qed.
Print Assumptions C161_unsupported.
Theorem C161_sprnf_stops : forall cf A m dst fmt (items : list (item (dbl A))) c x rest va, wf_cfg cf ->
  items_before cf (fun _ _ _ => False) 37 items -> Forall supported items -> conv_ok c -> meaningless x -> longer c x = false ->
  let t := plain cf items in let w := Zlen t + 1 in let f := format items ++ conv_text c x ++ rest in Zlen t < INT_MAX ->
  writable m dst w -> bytes_at m fmt f -> clear_of dst w fmt (Zlen f) -> Forall (item_mem m) items -> Forall (item_clear dst w) items ->
  exists m', sprnf_a cf A m dst fmt (arguments cf items ++ va) = Ok (None, m') /\ only_wrote m m' dst (Zlen t) /\ bytes_at m' dst t.
Proof.
  intros cf A m dst fmt items c x rest va Wf Hb Hs Hc Hx Hl t w f Ht Hw Hf Hfc Hm Hcl.
  pose proof (C161_unsupported cf A m dst INT_MAX fmt items c x rest va Wf ltac:(unfold INT_MAX; lia) Hb Hs Hc Hx Hl) as K. cbv zeta in K. fold t in K. fold f in K.
  assert (Z.min INT_MAX (Zlen t + 1) = Zlen t + 1) as Ew by (unfold INT_MAX in *; lia). pose proof (Zlen_nonneg t) as Zt.
  assert (Z.min (Z.max 0 (INT_MAX - 1)) (Zlen t) = Zlen t) as Ew2 by (unfold INT_MAX in *; lia).
  assert (firstn (Z.to_nat (INT_MAX - 1)) t = t) as Ef by (apply firstn_all2; unfold Zlen, INT_MAX in *; lia).
  rewrite Ew, Ew2, Ef in K. destruct (K Ht Hw Hf Hfc Hm Hcl) as (m' & E & O & B). exists m'. split; [exact E|]. auto.
Qed.
Print Assumptions C161_sprnf_stops.

(** A handler of single characters was called with the characters before it. *)
Theorem C161_handler : forall cf A W (rd : W -> mem) wr fn (J : W -> Prop) s fmt (items : list (item (dbl A))) c x rest va, wf_cfg cf ->
  (forall s c s', J s -> fn s c = Ok s' -> J s') ->
  items_before cf (fun _ _ _ => False) 37 items -> Forall supported items -> conv_ok c -> meaningless x -> longer c x = false ->
  (forall s, J s -> bytes_at (rd s) fmt (format items ++ conv_text c x ++ rest) /\ Forall (item_mem (rd s)) items) -> J s ->
  Zlen (plain cf items) < INT_MAX ->
  vfptrprnf_a cf A W rd wr (Some fn) s fmt (arguments cf items ++ va) = let! s := feed fn s (plain cf items) in Ok (None, s).
Proof.
  intros cf A W rd wr fn J s fmt items c x rest va Wf Hj Hb Hs Hc Hx Hl Hm HJ. destruct (before_then cf A 37 items ltac:(unfold is_byte; lia) Hb) as [P1 P2].
  unfold plain. rewrite <- (P2 0). intros Ht.
  apply (vfptrprnf_a_stop cf A W rd wr fn J Hj s fmt items (Other c x) rest va); auto.
  - eapply supported_quiet; eauto.
  - split; auto.
Qed.
Print Assumptions C161_handler.

(** "n=%d %Lf", stopped at %L; and "100%%%", stopped at the end, where the build as shipped reads
    beyond the format string. *)
Definition long_double {D} : list (item D) := [Text (bs "n="); Dec false (Conv [] WNone PNone Lint) 42; Text (bs " ")].
Definition no_conv : conv := Conv [] WNone PNone Lint.
Definition ld_mem : mem := xmem (bs "n=%d %Lf" ++ [0]) [].
Definition pc_mem : mem := xmem (bs "100%%%" ++ [0]) [].
Example C161_ex : forall A, items_before gcc64 (fun _ _ _ => False) 37 (@long_double (dbl A)) /\ Forall supported (@long_double (dbl A))
  /\ conv_ok no_conv /\ meaningless 76 /\ longer no_conv 76 = false /\ meaningless 0 /\ longer no_conv 0 = false
  /\ format (@long_double (dbl A)) ++ conv_text no_conv 76 ++ bs "f" ++ [0] = bs "n=%d %Lf" ++ [0]
  /\ seen_a (snprnf_a gcc64 A ld_mem xdst 20 xfmt [A32 42]) 5 = Some (None, bs "n=42 ")
  /\ seen_a (sprnf_a gcc64 A ld_mem xdst xfmt [A32 42]) 5 = Some (None, bs "n=42 ")
  /\ seen_a (snprnf_a gcc64 A ld_mem xdst 20 xfmt [A32 42]) 6 = None
  /\ seen_a (snprnf_a gcc64 A ld_mem xdst 4 xfmt [A32 42]) 3 = Some (None, bs "n=4")
  /\ seen_a (snprnf_a gcc64 A pc_mem xdst 20 xfmt []) 4 = Some (None, bs "100%")
  /\ snprnf gcc64 A pc_mem xdst 20 xfmt [] = UB UB_bounds.
Proof.
  intros A. split.
  { unfold items_before, item_ok, conv_ok, long_double; cbn -[Z.lt Z.le In counts]; repeat (split || constructor); cbv; try intuition discriminate; try reflexivity. }
  split; [repeat constructor|]. split; [split; exact I|].
  split; [split; [lia|cbn; intuition discriminate]|]. split; [reflexivity|]. split; [split; [lia|cbn; intuition discriminate]|]. split; [reflexivity|].
  repeat split; vm_compute; reflexivity.
Qed.
