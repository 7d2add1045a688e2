(** Concrete buffers for the examples. *)
From Coq Require Import String.
From Verif Require Import Base Mem Libc StrviewModel Spec MemLemmas Alloc StrbufModel BufSpec HistSpec
  StrbufProofs StrbufProofs2 StrbufProofs3 ExampleLib.
Local Open Scope string_scope.
Local Open Scope list_scope.
Local Open Scope Z_scope.

(** An object holding exactly the buffer [B]; unused characters are uninitialised. *)
Definition bufblk (cf : cfg) (base : Z) (B : buffer) : block :=
  Block base (hdr_size cf + bf_cap B + 1) true (if dyn B then Heap (bf_alloc B) else Static)
    (fun i => if i <? hdr_size cf then CHdr (hdr_of B) i
              else if i <? hdr_size cf + Zlen (bf_data B) then CByte (nth (Z.to_nat (i - hdr_size cf)) (bf_data B) 0)
              else if i =? hdr_size cf + Zlen (bf_data B) then CByte 0 else CUndef).

Lemma bufblk_ok : forall cf base B, wf_cfg cf -> base mod c_ptrbytes cf = 0 -> Forall is_byte (bf_data B) ->
  Zlen (bf_data B) <= bf_cap B <= INT_MAX -> buf_in cf (bufblk cf base B) 0 B.
Proof.
  intros cf base B W Hb By C. pose proof (hdr_size_pos cf W) as Hp. pose proof (Zlen_nonneg (bf_data B)) as Hn.
  unfold buf_in, bufblk. cbn [b_live b_base b_size b_owner b_get]. repeat split; try lia; auto.
  - now rewrite Z.add_0_r.
  - intros i Hi. now rewrite (proj2 (Z.ltb_lt _ _)) by lia.
  - intros i Hi. rewrite (proj2 (Z.ltb_ge _ _)), (proj2 (Z.ltb_lt _ _)) by lia. do 3 f_equal. lia.
  - rewrite (proj2 (Z.ltb_ge _ _)), (proj2 (Z.ltb_ge _ _)), (proj2 (Z.eqb_eq _ _)) by lia. reflexivity.
  - now rewrite H.
Qed.
Lemma bufblk_at : forall cf m b base B, wf_cfg cf -> nth_error m b = Some (bufblk cf base B) -> base mod c_ptrbytes cf = 0 ->
  Forall is_byte (bf_data B) -> Zlen (bf_data B) <= bf_cap B <= INT_MAX -> buf_at cf m (Ptr (PBlk b) 0) B.
Proof. intros. exists b, (bufblk cf base B). split; [reflexivity|]. split; [assumption|]. now apply bufblk_ok. Qed.

(** Executable check that the pointer [p] points to the buffer [B] alone in its object. *)
Ltac buf_check base :=
  eapply (bufblk_at _ _ _ base); [split; [cbn; lia|auto]|reflexivity|reflexivity|apply byteb_ok; vm_compute; reflexivity|cbn; unfold INT_MAX; lia].

(** What the caller sees after a call: contents read through the returned view, capacity. *)
Definition shows (cf : cfg) (r : outcome (view * option ptr * st)) : option (option (list Z) * Z) :=
  match r with
  | Ok (v, Some p, w) =>
      match load_hdr cf (s_mem w) p, read_view (s_mem w) v with
      | Ok h, Ok x => Some (x, h_cap h)
      | _, _ => None
      end
  | _ => None
  end.

(** Two allocators. *)
Definition heapA : allocator := Alloc 7 (Some 1%nat).
Definition heapB : allocator := Alloc 9 (Some 2%nat).
Definition fixed : allocator := Alloc 0 None.

Definition b_hello : buffer := Buffer (bs "hello") 8 heapA.
Definition b_fixed : buffer := Buffer (bs "abcdef") 10 fixed.

(** A dynamic buffer, a text, a fixed buffer, a C string, uninitialised memory. *)
Definition xm : mem :=
  [ bufblk gcc64 4096 b_hello; blk 8192 (bs "wide world"); bufblk gcc64 12288 b_fixed;
    blk 16384 (bs "lo" ++ [0]); Block 20480 100 true Static (fun _ => CUndef) ].
(** The allocator moves the block at every resize; the other one resizes in place. *)
Definition w_move : st := St xm (fun _ => Choice false true 0).
Definition w_stay : st := St xm (fun _ => Choice false false 0).
Definition pdyn : ptr := Ptr (PBlk 0) 0.
Definition pfix : ptr := Ptr (PBlk 2) 0.
Definition wide : view := vw 1 0 4.

Lemma xm_wf : mem_wf xm. Proof. wf_check. Qed.
Lemma gcc64_wf : wf_cfg gcc64. Proof. split; [cbn; lia|auto]. Qed.
Lemma pdyn_ok : buf_at gcc64 xm pdyn b_hello. Proof. buf_check 4096. Qed.
Lemma pfix_ok : buf_at gcc64 xm pfix b_fixed. Proof. buf_check 12288. Qed.
Lemma move_ok : no_fail w_move. Proof. intros n. reflexivity. Qed.
Lemma stay_ok : no_fail w_stay. Proof. intros n. reflexivity. Qed.
(** Sources: an external text; a part of the buffer itself. *)
Lemma wide_src : forall p B, p_obj p <> PBlk 1 -> source gcc64 xm p B wide (bs "wide").
Proof. intros p B H. apply src_outside; [view_check|]. split; [eexists; reflexivity|left; cbn; congruence]. Qed.
Lemma ell_src : source gcc64 xm pdyn b_hello (vw 0 25 3) (bs "ell").
Proof. exact (src_inside gcc64 xm pdyn b_hello (bs "h") (bs "ell") (bs "o") eq_refl). Qed.
Lemma bcd_src : source gcc64 xm pfix b_fixed (vw 2 25 3) (bs "bcd").
Proof. exact (src_inside gcc64 xm pfix b_fixed (bs "a") (bs "bcd") (bs "ef") eq_refl). Qed.
Lemma any_sums : forall n, sums_ok gcc64 n. Proof. intros n. now left. Qed.
