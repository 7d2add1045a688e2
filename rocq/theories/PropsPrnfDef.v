(** Property theorem about prnf with other default precisions, for any arithmetic (C162). *)
From Coq Require Import String.
From Verif Require Import Base Mem Libc StrviewModel Spec MemLemmas NumSpec PrnfModel PrnfSpec PrnfSpec2 PrnfProofs4 PrnfProofs5 PrnfProofs9 PrnfDefModel PrnfDefSpec PrnfDefProofs
  ExampleLib BufExample PropsBuf PropsBuf2 PropsPrnf PropsPrnf2.
Local Open Scope string_scope.
Local Open Scope list_scope.
Local Open Scope Z_scope.

(** snprnf with these default precisions. *)
Notation snprnf_d cf A df := (vsnprnf_d cf A mem (fun m : mem => m) (fun _ m => m) df).

Notation sprnf_d cf A df := (vsprnf_d cf A mem (fun m : mem => m) (fun _ m => m) df).

(** With the values as shipped: any format string, any arguments. *)
Theorem C162_shipped : forall cf A m dst n fmt va, snprnf_d cf A as_shipped m dst n fmt va = snprnf cf A m dst n fmt va /\ sprnf_d cf A as_shipped m dst fmt va = sprnf cf A m dst fmt va.
Proof. intros. unfold vsnprnf_d, vsnprnf, vsprnf_d, vsprnf. rewrite !core_same. split; reflexivity. Qed.
Print Assumptions C162_shipped.

(** Formats without %f and %e do not depend on them. *)
Theorem C162_unused : forall cf A df m dst n fmt items va, wf_cfg cf -> 0 <= n <= INT_MAX -> plain_items cf items ->
  let t := plain cf items in let w := Z.min n (Zlen t + 1) in Zlen t < INT_MAX ->
  writable m dst w -> given m fmt items -> elsewhere dst w fmt items ->
  exists m', snprnf_d cf A df m dst n fmt (arguments cf items ++ va) = Ok (Zlen t, m') /\
    only_wrote m m' dst w /\ (0 < n -> bytes_at m' dst (firstn (Z.to_nat (n - 1)) t ++ [0])).
Proof.
  intros cf A df m dst n fmt items va Wf Hn Hp. destruct (plain_fine cf A items 0 Hp) as [P1 P2]. cbv zeta. unfold plain. rewrite <- P2.
  assert (map (written_out (d_eng df) (d_flt df)) items = items /\ items_ok cf any_flt items /\ Forall (fun i => item_ok cf (flt_fine A) (written_out (d_eng df) (d_flt df) i)) items) as (E & H1 & H2).
  { clear - Hp. induction items as [|i items IH]; [repeat split; constructor|]. destruct Hp as (Hi & Hl & Hx). destruct (IH Hl) as (E & H1 & H2). cbn [map items_ok]. rewrite E.
    assert (written_out (d_eng df) (d_flt df) i = i /\ item_ok cf any_flt i /\ item_ok cf (flt_fine A) i) as (-> & K1 & K2) by (destruct i; cbn [item_ok written_out] in *; tauto).
    split; auto. split; auto. constructor; auto. destruct i; cbn [item_ok written_out] in *; tauto. }
  intros Ht Hw [G1 G2] [E1 E2]. pose proof (vsnprnf_d_ok cf A df m dst n fmt items va Wf Hn) as K. cbv zeta in K. rewrite E in K. apply K; auto.
Qed.
Print Assumptions C162_unused.

Example C162_unused_ex : forall A, plain_items gcc64 (@row (dbl A)) /\
  seen (snprnf_d gcc64 A (Defaults 300 7) row_mem xdst 20 xfmt (arguments gcc64 row)) 20 = Some (27, bs "id   -42....abc   B" ++ [0]).
Proof. intros A. split; [items_check|vm_compute; reflexivity]. Qed.
