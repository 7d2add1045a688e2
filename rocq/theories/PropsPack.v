(** Property theorems about packing and unpacking integers (C56, C71). *)
From Coq Require Import String.
From Verif Require Import Base Mem Libc StrviewModel Spec MemLemmas Alloc StrbufModel BufSpec ExampleLib BufExample PropsBuf StrbufProofs2
  PackModel PackSpec PackProofs.
Local Open Scope string_scope.
Local Open Scope list_scope.
Local Open Scope Z_scope.

(** ** C56 *)
Theorem C56_pack : forall cf o w p B base t x, ready cf w p B -> c_ptr cf = true ->
  sums_ok cf (Zlen (bf_data B) + Zlen (wire o t x)) ->
  exists p' w', STRBUF_PACK cf o w (Some p) base t x = Ok (Some p', w') /\
    buf_at cf (s_mem w') p' (put cf B (bf_data B ++ wire o t x)) /\
    touches cf (s_mem w) (s_mem w') p p' B /\ mem_wf (s_mem w') /\ no_fail w'.
Proof. intros cf o w p B base t x (H1 & H2 & H3 & H4) Hc Hs. apply pack_ok; auto. unfold Zlen in Hs at 2. now rewrite wire_len in Hs. Qed.
Print Assumptions C56_pack.

Theorem C56_unpack : forall cf m v o t x rest, has_view m v (wire o t x ++ rest) -> in_type t x ->
  exists v', STRVIEW_UNPACK cf o m t v = Ok (x, v') /\
    (rest <> [] -> v' = subview v (Zlen (wire o t x)) (Zlen rest) /\ has_view m v' rest) /\ (rest = [] -> v' = INVALID).
Proof.
  intros cf m v o t x rest H Hx. rewrite (unpack_ok cf m v o t x rest H Hx). eexists. split; [reflexivity|].
  assert (Zlen (wire o t x) = Z.of_nat (i_bytes t)) as Lw by (unfold Zlen; now rewrite wire_len). split; intros Hr.
  - destruct rest as [|c r]; [congruence|]. rewrite <- Lw. split; auto. now apply has_view_suffix in H.
  - now rewrite Hr.
Qed.
Print Assumptions C56_unpack.

(** A message of any fields is packed into a buffer after its contents, and unpacked again. *)
Theorem C56_round_trip : forall cf w p B M base, ready cf w p B -> c_ptr cf = true -> message_ok M -> M <> [] ->
  fits B (bf_data B ++ encoded M) = true -> sums_ok cf (Zlen (bf_data B ++ encoded M)) ->
  exists p' w' cap' v', pack_all cf w (Some p) M base = Ok (Some p', w') /\
    buf_at cf (s_mem w') p' (Buffer (bf_data B ++ encoded M) cap' (bf_alloc B)) /\
    touches cf (s_mem w) (s_mem w') p p' B /\ mem_wf (s_mem w') /\
    (let! v := strbuf_view cf w' (Some p') in let! v1 := strview_sub cf (s_mem w') v (Zlen (bf_data B)) INT_MAX in
     unpack_all cf (s_mem w') v1 (map fst M)) = Ok (map snd M, v').
Proof.
  intros cf w p B M base (H1 & H2 & H3 & H4) Hc Ok Nm Hf Hs.
  destruct (pack_all_ok cf M w p B base H1 Hc H2 H3 H4 Hf Hs) as (p' & w' & cap' & R & A1 & A2 & A3 & A4).
  pose proof (buf_at_view cf _ _ _ H1 A1) as V. cbn [bf_data] in V.
  assert (encoded M <> []) as Ne.
  { destruct M as [|[[o t] x] M]; [congruence|]. rewrite encoded_cons. pose proof (wire_len o t x) as L. destruct (wire o t x); [destruct t as [s []]; discriminate L|discriminate]. }
  pose proof (StrviewProofs2.sub_from cf _ _ _ _ V Ne) as S.
  apply has_view_suffix in V. set (u := subview _ _ _) in *.
  assert (has_view (s_mem w') u (encoded M ++ [])) as V2 by (rewrite app_nil_r; exact V). destruct (unpack_all_ok cf _ M _ [] V2 Ok) as (v' & U & _).
  exists p', w', cap', v'. split; auto. split; auto. split; auto. split; auto.
  rewrite (strbuf_view_ok cf w' p' _ H1 A1). cbn [bind]. rewrite S. cbn [bind]. exact U.
Qed.
Print Assumptions C56_round_trip.

Definition be64 : cfg := Cfg true true true true true true true 16 8.
Definition msg : message :=
  [ (BE, Ity false W16, 258); (LE, Ity true W32, -2); (BE, Ity true W64, -9223372036854775808); (LE, Ity false W8, 255) ].
Definition msg_wire : list Z := [1; 2; 254; 255; 255; 255; 128; 0; 0; 0; 0; 0; 0; 0; 255].
Definition around (cf : cfg) : outcome (list Z * list Z) :=
  let! (bp, w) := pack_all cf w_move (Some pdyn) msg (fun _ => 99) in
  let! v := strbuf_view cf w bp in
  let! l := load_bytes (s_mem w) (v_data v) (Z.to_nat (v_size v)) in
  let! v1 := strview_sub cf (s_mem w) v 5 INT_MAX in
  let! (xs, _) := unpack_all cf (s_mem w) v1 (map fst msg) in
  Ok (l, xs).
Example C56_ex : ready gcc64 w_move pdyn b_hello /\ message_ok msg /\ encoded msg = msg_wire
  /\ fits b_hello (bf_data b_hello ++ encoded msg) = true /\ sums_ok gcc64 (Zlen (bf_data b_hello ++ encoded msg))
  /\ around gcc64 = Ok (bs "hello" ++ msg_wire, [258; -2; -9223372036854775808; 255])
  /\ around be64 = Ok (bs "hello" ++ msg_wire, [258; -2; -9223372036854775808; 255]).
Proof.
  split; [exact dyn_ready|]. split; [repeat (apply Forall_cons; [unfold in_type; cbn; lia|]); apply Forall_nil|].
  split; [reflexivity|]. split; [reflexivity|]. split; [apply any_sums|]. split; vm_compute; reflexivity.
Qed.
Example C56_view_ex : has_view xm wide (wire BE (Ity false W16) (119 * 256 + 105) ++ bs "de").
Proof. assert (wire BE (Ity false W16) (119 * 256 + 105) ++ bs "de" = bs "wide") as -> by (vm_compute; reflexivity). view_check. Qed.

(** ** C71 *)
(** The value unpacked from a view that is too short depends on memory outside of the view,
    or the access is outside of the object. *)
Definition text_mem (l : list Z) : mem := [Block 64 (Zlen l) true Static (fun i => CByte (nth (Z.to_nat i) l 0))].
Theorem C71_unpack_beyond_view_refuted : exists m1 m2 m3 v l x1 x2 v1 v2,
  has_view m1 v l /\ has_view m2 v l /\ has_view m3 v l /\
  STRVIEW_UNPACK gcc64 BE m1 (Ity false W32) v = Ok (x1, v1) /\ STRVIEW_UNPACK gcc64 BE m2 (Ity false W32) v = Ok (x2, v2) /\ x1 <> x2 /\
  STRVIEW_UNPACK gcc64 BE m3 (Ity false W32) v = UB UB_bounds.
Proof.
  exists (text_mem [1; 2; 3; 4]), (text_mem [1; 2; 3; 5]), (text_mem [1; 2; 3]), (vw 0 0 3), [1; 2; 3], 16909060, 16909061, INVALID, INVALID.
  split; [view_check|]. split; [view_check|]. split; [view_check|]. split; [vm_compute; reflexivity|]. split; [vm_compute; reflexivity|]. split; [discriminate|vm_compute; reflexivity].
Qed.
Print Assumptions C71_unpack_beyond_view_refuted.
(** What does hold: with enough bytes in the view only those are used. *)
Theorem C71_unpack_in_view : forall cf m1 m2 v o t l1 l2 a1 a2, has_view m1 v l1 -> has_view m2 v l2 -> Zlen l1 = Zlen l2 ->
  bits_of t <= 8 * Zlen l1 -> firstn (Z.to_nat (bits_of t / 8)) l1 = firstn (Z.to_nat (bits_of t / 8)) l2 ->
  STRVIEW_UNPACK cf o m1 t v = Ok a1 -> STRVIEW_UNPACK cf o m2 t v = Ok a2 -> fst a1 = fst a2.
Proof. exact unpack_in_view. Qed.
Print Assumptions C71_unpack_in_view.
