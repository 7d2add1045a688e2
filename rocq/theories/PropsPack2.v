(** Property theorems: the types of variables that can be packed and unpacked (C143). *)
From Coq Require Import String.
From Verif Require Import Base Mem Libc StrviewModel Spec MemLemmas Alloc StrbufModel BufSpec MacroModel PackModel PackSpec PackTypeModel PackTypeSpec PackTypeProofs
  ExampleLib BufExample PropsBuf.
Local Open Scope string_scope.
Local Open Scope list_scope.
Local Open Scope Z_scope.

(** ** C143 *)
(** The types of stdint.h are packed and unpacked in both byte orders on every platform. *)
Theorem C143_pack_partial : forall cf P o w p B base t it x, plat_ok cf P -> ready cf w p B -> c_ptr cf = true ->
  exact_width P t it -> sums_ok cf (Zlen (bf_data B) + Zlen (wire o it x)) ->
  exists r, pack_macro cf P o w (Some p) false base t (VInt x) false = Some r /\ appended cf w p B (wire o it x) r.
Proof. intros cf P o w p B base t it x HP (W & Wm & Nf & HB) Hc. now apply pack_exact_ok. Qed.
Print Assumptions C143_pack_partial.
Theorem C143_unpack_partial : forall cf P o m v t it x rest, plat_ok cf P -> has_view m v (wire o it x ++ rest) -> exact_width P t it -> in_type it x ->
  exists v', unpack_macro cf P o m t v = Some (Ok (VInt x, v')) /\ behind m v (Zlen (wire o it x)) rest v'.
Proof. intros cf P o m v t it x rest HP. now apply unpack_exact_ok. Qed.
Print Assumptions C143_unpack_partial.
(** In the byte order of the host values of every type are packed and unpacked, floating point numbers as they are in memory. *)
Theorem C143_host_pack_partial : forall cf P w p B base t v, plat_ok cf P -> ready cf w p B -> c_ptr cf = true ->
  value_of cf P t v -> sums_ok cf (Zlen (bf_data B) + Z.of_nat (size_of cf P t)) ->
  exists r, pack_macro cf P (host cf) w (Some p) false base t v false = Some r /\ appended cf w p B (wired cf (host cf) t v) r.
Proof. intros cf P w p B base t v HP (W & Wm & Nf & HB) Hc. now apply pack_host_ok. Qed.
Print Assumptions C143_host_pack_partial.
Theorem C143_host_unpack_partial : forall cf P m v t x rest, plat_ok cf P -> has_view m v (wired cf (host cf) t x ++ rest) -> value_of cf P t x ->
  exists v', unpack_macro cf P (host cf) m t v = Some (Ok (x, v')) /\ behind m v (Z.of_nat (size_of cf P t)) rest v'.
Proof. intros cf P m v t x rest HP. now apply unpack_host_ok. Qed.
Print Assumptions C143_host_unpack_partial.
(** In the other byte order exactly the types of stdint.h compile. *)
Theorem C143_other_order_exact : forall cf P o t, plat_ok cf P -> o <> host cf ->
  (forall w dst base x, pack_macro cf P o w dst false base t (VInt x) false <> None <-> exists it, exact_width P t it) /\
  (forall m v, unpack_macro cf P o m t v <> None <-> exists it, exact_width P t it).
Proof. intros cf P o t HP Ho. split; intros; [now apply pack_compiles|now apply unpack_compiles]. Qed.
Print Assumptions C143_other_order_exact.

(** Not all primitive integer types are supported: char never is, and neither is one of int, long and long long, nor its
    unsigned type. *)
Theorem C143_primitive_refuted : forall cf P o, plat_ok cf P -> o <> host cf ->
  exists t, In t [DInt; DLong; DLlong] /\ forall u, In u [DChar; t; unsigned_of t] ->
    (forall w dst base x, pack_macro cf P o w dst false base u (VInt x) false = None) /\ (forall m v, unpack_macro cf P o m u v = None).
Proof.
  intros cf P o HP Ho. destruct (one_not_exact cf P HP) as (t & Ht & Hn). exists t. split; auto. intros u Hu.
  assert (forall it, ~ exact_width P u it) as K.
  { intros it. destruct Hu as [<-|[<-|[<-|[]]]]; [now apply char_not_exact with cf|apply Hn|apply Hn]. }
  destruct (C143_other_order_exact cf P o u HP Ho) as [E1 E2]. split.
  - intros w dst base x. specialize (E1 w dst base x). destruct (pack_macro cf P o w dst false base u (VInt x) false); auto.
    destruct (proj1 E1) as [it Hi]; [discriminate|]. now apply K in Hi.
  - intros m v. specialize (E2 m v). destruct (unpack_macro cf P o m u v); auto. destruct (proj1 E2) as [it Hi]; [discriminate|]. now apply K in Hi.
Qed.
Print Assumptions C143_primitive_refuted.
(** A floating point number is an error only if its bytes would have to be swapped: in the byte order of the host every
    floating point number compiles and its representation is appended. *)
Theorem C143_float_refuted : forall cf P w p B base t l, plat_ok cf P -> ready cf w p B -> c_ptr cf = true ->
  In t [DFloat; DDouble; DLdouble] -> value_of cf P t (VRep l) -> sums_ok cf (Zlen (bf_data B) + Zlen l) ->
  (exists r, pack_macro cf P (host cf) w (Some p) false base t (VRep l) false = Some r /\ appended cf w p B l r) /\
  (forall o, o <> host cf -> pack_macro cf P o w (Some p) false base t (VRep l) false = None).
Proof.
  intros cf P w p B base t l HP R Hc Ht Hv Hs. assert (int_rep cf t = None) as E by (destruct Ht as [<-|[<-|[<-|[]]]]; reflexivity). split.
  - apply (C143_host_pack_partial cf P w p B base t (VRep l)); auto. unfold value_of in Hv. rewrite E in Hv. destruct Hv as (<- & _). exact Hs.
  - intros o Ho. now apply rep_foreign.
Qed.
Print Assumptions C143_float_refuted.
(** A variable called tmp cannot be packed: its value is never read.  A buffer variable called tmp does not compile. *)
Theorem C143_tmp_refuted : forall cf P o w dst base t it v, plat_ok cf P -> exact_width P t it ->
  pack_macro cf P o w dst false base t v true = Some (UB UB_uninit) /\ forall b, pack_macro cf P o w dst true base t v b = None.
Proof.
  intros cf P o w dst base t it v HP Ht. unfold pack_macro. destruct (host_dec cf o) as [->|Ho].
  - rewrite (proj1 (pack_host cf P t)). auto.
  - rewrite (proj1 (pack_foreign cf P o t Ho)). unfold swapped. destruct (exact_swap cf P HP t it Ht) as (f & -> & _). auto.
Qed.
Print Assumptions C143_tmp_refuted.
(** Linux on 64 bit processors, newlib on 32 bit processors *)
Definition lp64 : plat := Plat DSchar DShort DInt DLong 16.
Definition newlib : plat := Plat DSchar DShort DLong DLlong 8.
Definition arm32 : cfg := Cfg false true true true true false false 16 4.
Definition packed (r : option (outcome (option ptr * st))) : option (option (list Z) * Z) :=
  match r with Some x => shows gcc64 (let! (p, w) := x in ret_view gcc64 p w) | None => None end.
Example C143_ex : plat_ok gcc64 lp64 /\ plat_ok arm32 newlib /\ ready gcc64 w_move pdyn b_hello
  /\ exact_width lp64 DUlong (Ity false W64) /\ exact_width newlib DUlong (Ity false W32) /\ host gcc64 = LE
  /\ packed (pack_macro gcc64 lp64 BE w_move (Some pdyn) false 0 DUshort (VInt 16706) false) = Some (Some (bs "helloAB"), 8)
  /\ packed (pack_macro gcc64 lp64 LE w_move (Some pdyn) false 0 DUshort (VInt 16706) false) = Some (Some (bs "helloBA"), 8)
  /\ packed (pack_macro gcc64 lp64 LE w_move (Some pdyn) false 0 DChar (VInt 66) false) = Some (Some (bs "helloB"), 8)
  /\ pack_macro gcc64 lp64 BE w_move (Some pdyn) false 0 DChar (VInt 66) false = None
  /\ pack_macro gcc64 lp64 BE w_move (Some pdyn) false 0 DLlong (VInt 66) false = None
  /\ pack_macro arm32 newlib BE w_move (Some pdyn) false 0 DInt (VInt 66) false = None
  /\ value_of gcc64 lp64 DFloat (VRep [0; 0; 192; 63])
  /\ packed (pack_macro gcc64 lp64 LE w_move (Some pdyn) false 0 DFloat (VRep [0; 0; 192; 63]) false) = Some (Some (bs "hello" ++ [0; 0; 192; 63]), 16)
  /\ has_view xm wide (wire BE (Ity true W16) 30569 ++ bs "de")
  /\ unpack_macro gcc64 lp64 BE xm DShort wide = Some (Ok (VInt 30569, vw 1 2 2)).
Proof.
  split. { unfold plat_ok; cbn; repeat split; auto; lia. }
  split. { unfold plat_ok; cbn; repeat split; auto; lia. }
  split; [exact dyn_ready|]. split; [unfold exact_width; cbn; intuition reflexivity|]. split; [unfold exact_width; cbn; intuition reflexivity|].
  split; [reflexivity|]. do 6 (split; [vm_compute; reflexivity|]). split. { cbn. repeat split; repeat constructor; unfold is_byte, INT_MAX; lia. }
  split; [vm_compute; reflexivity|]. split; [view_check|]. vm_compute. reflexivity.
Qed.
