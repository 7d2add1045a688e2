(** Withdrawing a compiler's promises changes an outcome only into an undefined one: buffers,
    the output handlers, pack and crypt. *)
From Verif Require Import Base Mem Libc StrviewModel Alloc StrbufModel IoModel PackModel AesModel
  CryptModel PortSpec PortView.

Lemma on_buf_mono T bp (d : outcome T) k1 k2 :
  (forall p, below (k1 p) (k2 p)) -> below (on_buf bp d k1) (on_buf bp d k2).
Proof.
  intro K. unfold on_buf. destruct bp as [p|]; [|apply below_refl].
  destruct (is_null p); [apply below_refl|apply K].
Qed.

Ltac mono ::= repeat (cbv zeta; autorewrite with mono;
  first [mono1 | match goal with |- below (on_buf _ _ _) (on_buf _ _ _) => apply on_buf_mono; intro end]).

Lemma place_ok_eq fw cf : place_ok (restrict fw cf) = place_ok cf.
Proof. reflexivity. Qed.
Global Hint Rewrite place_ok_eq : mono.

Lemma fresh_base_eq fw cf : fresh_base (restrict fw cf) = fresh_base cf.
Proof. reflexivity. Qed.
Global Hint Rewrite fresh_base_eq : mono.

Lemma place_eq fw cf : place (restrict fw cf) = place cf.
Proof. reflexivity. Qed.
Global Hint Rewrite place_eq : mono.

Lemma alloc_call_mono fw cf : forall (w : st) (a : allocator) (p : ptr) (n : Z),
  below (alloc_call (restrict fw cf) w a p n) (alloc_call cf w a p n).
Proof. intros; unfold alloc_call; mono. Qed.
Global Hint Resolve alloc_call_mono : mono.

Lemma hdr_size_eq fw cf : hdr_size (restrict fw cf) = hdr_size cf.
Proof. reflexivity. Qed.
Global Hint Rewrite hdr_size_eq : mono.

Lemma hdr_cells_eq fw cf : hdr_cells (restrict fw cf) = hdr_cells cf.
Proof. reflexivity. Qed.
Global Hint Rewrite hdr_cells_eq : mono.

Lemma load_hdr_mono fw cf : forall (m : mem) (p : ptr),
  below (load_hdr (restrict fw cf) m p) (load_hdr cf m p).
Proof. intros; unfold load_hdr; mono. Qed.
Global Hint Resolve load_hdr_mono : mono.

Lemma store_hdr_mono fw cf : forall (m : mem) (p : ptr) (h : hdr),
  below (store_hdr (restrict fw cf) m p h) (store_hdr cf m p h).
Proof. intros; unfold store_hdr; mono. Qed.
Global Hint Resolve store_hdr_mono : mono.

Lemma cstr_of_eq fw cf : cstr_of (restrict fw cf) = cstr_of cf.
Proof. reflexivity. Qed.
Global Hint Rewrite cstr_of_eq : mono.

Lemma char_at_mono fw cf : forall (m : mem) (p : ptr) (i : Z),
  below (char_at (restrict fw cf) m p i) (char_at cf m p i).
Proof. intros; unfold char_at; mono. Qed.
Global Hint Resolve char_at_mono : mono.

Lemma set_size_mono fw cf : forall (m : mem) (p : ptr) (n : Z),
  below (set_size (restrict fw cf) m p n) (set_size cf m p n).
Proof. intros; unfold set_size; mono. Qed.
Global Hint Resolve set_size_mono : mono.

Lemma set_cap_mono fw cf : forall (m : mem) (p : ptr) (n : Z),
  below (set_cap (restrict fw cf) m p n) (set_cap cf m p n).
Proof. intros; unfold set_cap; mono. Qed.
Global Hint Resolve set_cap_mono : mono.

Lemma set_char_mono fw cf : forall (m : mem) (p : ptr) (i c : Z),
  below (set_char (restrict fw cf) m p i c) (set_char cf m p i c).
Proof. intros; unfold set_char; mono. Qed.
Global Hint Resolve set_char_mono : mono.

Lemma buf_is_dynamic_mono fw cf : forall (m : mem) (p : ptr),
  below (buf_is_dynamic (restrict fw cf) m p) (buf_is_dynamic cf m p).
Proof. intros; unfold buf_is_dynamic; mono. Qed.
Global Hint Resolve buf_is_dynamic_mono : mono.

Lemma empty_buf_mono fw cf : forall (m : mem) (p : ptr),
  below (empty_buf (restrict fw cf) m p) (empty_buf cf m p).
Proof. intros; unfold empty_buf; mono. Qed.
Global Hint Resolve empty_buf_mono : mono.

Lemma add_will_overflow_int_mono fw cf : forall (a b : Z),
  below (add_will_overflow_int (restrict fw cf) a b) (add_will_overflow_int cf a b).
Proof. intros; unfold add_will_overflow_int; mono. Qed.
Global Hint Resolve add_will_overflow_int_mono : mono.

Lemma round_up_capacity_mono fw cf : forall (capacity : Z),
  below (round_up_capacity (restrict fw cf) capacity) (round_up_capacity cf capacity).
Proof. intros; unfold round_up_capacity; mono. Qed.
Global Hint Resolve round_up_capacity_mono : mono.

Lemma buf_contains_str_mono fw cf : forall (m : mem) (p : ptr) (str : view),
  below (buf_contains_str (restrict fw cf) m p str) (buf_contains_str cf m p str).
Proof. intros; unfold buf_contains_str; mono. Qed.
Global Hint Resolve buf_contains_str_mono : mono.

Lemma strview_of_buf_mono fw cf : forall (m : mem) (p : ptr),
  below (strview_of_buf (restrict fw cf) m p) (strview_of_buf cf m p).
Proof. intros; unfold strview_of_buf; mono. Qed.
Global Hint Resolve strview_of_buf_mono : mono.

Lemma alloc_size_eq fw cf : alloc_size (restrict fw cf) = alloc_size cf.
Proof. reflexivity. Qed.
Global Hint Rewrite alloc_size_eq : mono.

Lemma create_buf_mono fw cf : forall (w : st) (initial_capacity : Z) (a : allocator),
  below (create_buf (restrict fw cf) w initial_capacity a) (create_buf cf w initial_capacity a).
Proof. intros; unfold create_buf; mono. Qed.
Global Hint Resolve create_buf_mono : mono.

Lemma change_buf_capacity_mono fw cf : forall (w : st) (p : ptr) (new_capacity : Z),
  below (change_buf_capacity (restrict fw cf) w p new_capacity) (change_buf_capacity cf w p new_capacity).
Proof. intros; unfold change_buf_capacity; mono. Qed.
Global Hint Resolve change_buf_capacity_mono : mono.

Lemma destroy_buf_mono fw cf : forall (w : st) (p : ptr),
  below (destroy_buf (restrict fw cf) w p) (destroy_buf cf w p).
Proof. intros; unfold destroy_buf; mono. Qed.
Global Hint Resolve destroy_buf_mono : mono.

Lemma ensure_mono fw cf : forall (w : st) (p : ptr) (n : Z),
  below (ensure (restrict fw cf) w p n) (ensure cf w p n).
Proof. intros; unfold ensure; mono. Qed.
Global Hint Resolve ensure_mono : mono.

Lemma clamp_index_mono fw cf : forall (index size : Z),
  below (clamp_index (restrict fw cf) index size) (clamp_index cf index size).
Proof. intros; unfold clamp_index; mono. Qed.
Global Hint Resolve clamp_index_mono : mono.

Lemma insert_strview_into_buf_mono fw cf : forall (w : st) (p : ptr) (index : Z) (str : view),
  below (insert_strview_into_buf (restrict fw cf) w p index str) (insert_strview_into_buf cf w p index str).
Proof. intros; unfold insert_strview_into_buf; mono. Qed.
Global Hint Resolve insert_strview_into_buf_mono : mono.

Lemma assign_strview_to_buf_mono fw cf : forall (w : st) (p : ptr) (str : view),
  below (assign_strview_to_buf (restrict fw cf) w p str) (assign_strview_to_buf cf w p str).
Proof. intros; unfold assign_strview_to_buf; mono. Qed.
Global Hint Resolve assign_strview_to_buf_mono : mono.

Lemma append_char_to_buf_mono fw cf : forall (w : st) (p : ptr) (c : Z),
  below (append_char_to_buf (restrict fw cf) w p c) (append_char_to_buf cf w p c).
Proof. intros; unfold append_char_to_buf; mono. Qed.
Global Hint Resolve append_char_to_buf_mono : mono.

Lemma cat_measure_mono fw cf : forall (m : mem) (p : ptr) (args : list view) (size_needed : Z) (tmp failed : bool),
  below (cat_measure (restrict fw cf) m p args size_needed tmp failed)
        (cat_measure cf m p args size_needed tmp failed).
Proof.
  intros m p args; revert m p; induction args; intros; cbn [cat_measure]; mono.
Qed.
Global Hint Resolve cat_measure_mono : mono.

Lemma cat_append_mono fw cf : forall (w : st) (p : ptr) (args : list view),
  below (cat_append (restrict fw cf) w p args) (cat_append cf w p args).
Proof.
  intros w p args; revert w p; induction args; intros; cbn [cat_append]; mono.
Qed.
Global Hint Resolve cat_append_mono : mono.

Lemma buffer_vcat_mono fw cf : forall (w : st) (p : ptr) (args : list view),
  below (buffer_vcat (restrict fw cf) w p args) (buffer_vcat cf w p args).
Proof. intros; unfold buffer_vcat; mono. Qed.
Global Hint Resolve buffer_vcat_mono : mono.

Lemma ret_view_mono fw cf : forall (bp : option ptr) (w : st),
  below (ret_view (restrict fw cf) bp w) (ret_view cf bp w).
Proof. intros; unfold ret_view; mono. Qed.
Global Hint Resolve ret_view_mono : mono.

Lemma strbuf_create_empty_mono fw cf : forall (w : st) (dflt : allocator) (initial_capacity : Z) (a : option allocator),
  below (strbuf_create_empty (restrict fw cf) w dflt initial_capacity a)
        (strbuf_create_empty cf w dflt initial_capacity a).
Proof. intros; unfold strbuf_create_empty; mono. Qed.
Global Hint Resolve strbuf_create_empty_mono : mono.

Lemma strbuf_create_init_mono fw cf : forall (w : st) (dflt : allocator) (content : view) (a : option allocator),
  below (strbuf_create_init (restrict fw cf) w dflt content a) (strbuf_create_init cf w dflt content a).
Proof. intros; unfold strbuf_create_init; mono. Qed.
Global Hint Resolve strbuf_create_init_mono : mono.

Lemma strbuf_create_fixed_mono fw cf : forall (m : mem) (a : ptr) (addr_size : Z),
  below (strbuf_create_fixed (restrict fw cf) m a addr_size) (strbuf_create_fixed cf m a addr_size).
Proof. intros; unfold strbuf_create_fixed; mono. Qed.
Global Hint Resolve strbuf_create_fixed_mono : mono.

Lemma strbuf_cat_mono fw cf : forall (w : st) (bp : option ptr) (args : list view),
  below (strbuf_cat (restrict fw cf) w bp args) (strbuf_cat cf w bp args).
Proof. intros; unfold strbuf_cat; mono. Qed.
Global Hint Resolve strbuf_cat_mono : mono.

Lemma strbuf_view_mono fw cf : forall (w : st) (bp : option ptr),
  below (strbuf_view (restrict fw cf) w bp) (strbuf_view cf w bp).
Proof. intros; unfold strbuf_view; mono. Qed.
Global Hint Resolve strbuf_view_mono : mono.

Lemma strbuf_append_char_mono fw cf : forall (w : st) (bp : option ptr) (c : Z),
  below (strbuf_append_char (restrict fw cf) w bp c) (strbuf_append_char cf w bp c).
Proof. intros; unfold strbuf_append_char; mono. Qed.
Global Hint Resolve strbuf_append_char_mono : mono.

Lemma strbuf_shrink_mono fw cf : forall (w : st) (bp : option ptr),
  below (strbuf_shrink (restrict fw cf) w bp) (strbuf_shrink cf w bp).
Proof. intros; unfold strbuf_shrink; mono. Qed.
Global Hint Resolve strbuf_shrink_mono : mono.

Lemma strbuf_grow_mono fw cf : forall (w : st) (bp : option ptr) (min_size : Z),
  below (strbuf_grow (restrict fw cf) w bp min_size) (strbuf_grow cf w bp min_size).
Proof. intros; unfold strbuf_grow; mono. Qed.
Global Hint Resolve strbuf_grow_mono : mono.

Lemma strbuf_destroy_mono fw cf : forall (w : st) (bp : option ptr),
  below (strbuf_destroy (restrict fw cf) w bp) (strbuf_destroy cf w bp).
Proof. intros; unfold strbuf_destroy; mono. Qed.
Global Hint Resolve strbuf_destroy_mono : mono.

Lemma strbuf_to_cstr_mono fw cf : forall (w : st) (bp : option ptr),
  below (strbuf_to_cstr (restrict fw cf) w bp) (strbuf_to_cstr cf w bp).
Proof. intros; unfold strbuf_to_cstr; mono. Qed.
Global Hint Resolve strbuf_to_cstr_mono : mono.

Lemma strbuf_assign_mono fw cf : forall (w : st) (bp : option ptr) (str : view),
  below (strbuf_assign (restrict fw cf) w bp str) (strbuf_assign cf w bp str).
Proof. intros; unfold strbuf_assign; mono. Qed.
Global Hint Resolve strbuf_assign_mono : mono.

Lemma strbuf_append_strview_mono fw cf : forall (w : st) (bp : option ptr) (str : view),
  below (strbuf_append_strview (restrict fw cf) w bp str) (strbuf_append_strview cf w bp str).
Proof. intros; unfold strbuf_append_strview; mono. Qed.
Global Hint Resolve strbuf_append_strview_mono : mono.

Lemma strbuf_append_cstr_mono fw cf : forall (w : st) (bp : option ptr) (s : ptr),
  below (strbuf_append_cstr (restrict fw cf) w bp s) (strbuf_append_cstr cf w bp s).
Proof. intros; unfold strbuf_append_cstr; mono. Qed.
Global Hint Resolve strbuf_append_cstr_mono : mono.

Lemma strbuf_append_using_mono fw cf : forall (w : st) (bp : option ptr) (fetch : fetcher),
  below (strbuf_append_using (restrict fw cf) w bp fetch) (strbuf_append_using cf w bp fetch).
Proof. intros; unfold strbuf_append_using; mono. Qed.
Global Hint Resolve strbuf_append_using_mono : mono.

Lemma strbuf_prepend_strview_mono fw cf : forall (w : st) (bp : option ptr) (str : view),
  below (strbuf_prepend_strview (restrict fw cf) w bp str) (strbuf_prepend_strview cf w bp str).
Proof. intros; unfold strbuf_prepend_strview; mono. Qed.
Global Hint Resolve strbuf_prepend_strview_mono : mono.

Lemma strbuf_prepend_cstr_mono fw cf : forall (w : st) (bp : option ptr) (s : ptr),
  below (strbuf_prepend_cstr (restrict fw cf) w bp s) (strbuf_prepend_cstr cf w bp s).
Proof. intros; unfold strbuf_prepend_cstr; mono. Qed.
Global Hint Resolve strbuf_prepend_cstr_mono : mono.

Lemma strbuf_insert_at_index_strview_mono fw cf : forall (w : st) (bp : option ptr) (index : Z) (str : view),
  below (strbuf_insert_at_index_strview (restrict fw cf) w bp index str)
        (strbuf_insert_at_index_strview cf w bp index str).
Proof. intros; unfold strbuf_insert_at_index_strview; mono. Qed.
Global Hint Resolve strbuf_insert_at_index_strview_mono : mono.

Lemma strbuf_insert_at_index_cstr_mono fw cf : forall (w : st) (bp : option ptr) (index : Z) (s : ptr),
  below (strbuf_insert_at_index_cstr (restrict fw cf) w bp index s) (strbuf_insert_at_index_cstr cf w bp index s).
Proof. intros; unfold strbuf_insert_at_index_cstr; mono. Qed.
Global Hint Resolve strbuf_insert_at_index_cstr_mono : mono.

Lemma insert_at_ptr_mono fw cf : forall (w : st) (p : ptr) (d : ptr) (src : view),
  below (insert_at_ptr (restrict fw cf) w p d src) (insert_at_ptr cf w p d src).
Proof. intros; unfold insert_at_ptr; mono. Qed.
Global Hint Resolve insert_at_ptr_mono : mono.

Lemma strbuf_insert_before_strview_mono fw cf : forall (w : st) (bp : option ptr) (dst src : view),
  below (strbuf_insert_before_strview (restrict fw cf) w bp dst src) (strbuf_insert_before_strview cf w bp dst src).
Proof. intros; unfold strbuf_insert_before_strview; mono. Qed.
Global Hint Resolve strbuf_insert_before_strview_mono : mono.

Lemma strbuf_insert_before_cstr_mono fw cf : forall (w : st) (bp : option ptr) (dst : view) (s : ptr),
  below (strbuf_insert_before_cstr (restrict fw cf) w bp dst s) (strbuf_insert_before_cstr cf w bp dst s).
Proof. intros; unfold strbuf_insert_before_cstr; mono. Qed.
Global Hint Resolve strbuf_insert_before_cstr_mono : mono.

Lemma strbuf_insert_after_strview_mono fw cf : forall (w : st) (bp : option ptr) (dst src : view),
  below (strbuf_insert_after_strview (restrict fw cf) w bp dst src) (strbuf_insert_after_strview cf w bp dst src).
Proof. intros; unfold strbuf_insert_after_strview; mono. Qed.
Global Hint Resolve strbuf_insert_after_strview_mono : mono.

Lemma strbuf_insert_after_cstr_mono fw cf : forall (w : st) (bp : option ptr) (dst : view) (s : ptr),
  below (strbuf_insert_after_cstr (restrict fw cf) w bp dst s) (strbuf_insert_after_cstr cf w bp dst s).
Proof. intros; unfold strbuf_insert_after_cstr; mono. Qed.
Global Hint Resolve strbuf_insert_after_cstr_mono : mono.

Lemma contains_loop_mono fw cf : forall (m : mem) (p : ptr) (n : nat) (c : Z),
  below (contains_loop (restrict fw cf) m p n c) (contains_loop cf m p n c).
Proof.
  intros m p n; revert m p; induction n; intros; cbn [contains_loop]; mono.
Qed.
Global Hint Resolve contains_loop_mono : mono.

Lemma view_contains_char_mono fw cf : forall (m : mem) (v : view) (c : Z),
  below (view_contains_char (restrict fw cf) m v c) (view_contains_char cf m v c).
Proof. intros; unfold view_contains_char; mono. Qed.
Global Hint Resolve view_contains_char_mono : mono.

Lemma strip_loop_mono fw cf : forall (m : mem) (p q : ptr) (count : nat) (stripchars : view),
  below (strip_loop (restrict fw cf) m p q count stripchars) (strip_loop cf m p q count stripchars).
Proof.
  intros m p q count; revert m p q; induction count; intros; cbn [strip_loop]; mono.
Qed.
Global Hint Resolve strip_loop_mono : mono.

Lemma strbuf_strip_strview_mono fw cf : forall (w : st) (bp : option ptr) (stripchars : view),
  below (strbuf_strip_strview (restrict fw cf) w bp stripchars) (strbuf_strip_strview cf w bp stripchars).
Proof. intros; unfold strbuf_strip_strview; mono. Qed.
Global Hint Resolve strbuf_strip_strview_mono : mono.

Lemma strbuf_strip_cstr_mono fw cf : forall (w : st) (bp : option ptr) (s : ptr),
  below (strbuf_strip_cstr (restrict fw cf) w bp s) (strbuf_strip_cstr cf w bp s).
Proof. intros; unfold strbuf_strip_cstr; mono. Qed.
Global Hint Resolve strbuf_strip_cstr_mono : mono.

Lemma strbuf_append_vprintf_mono fw cf : forall (w : st) (bp : option ptr) (r : formatted),
  below (strbuf_append_vprintf (restrict fw cf) w bp r) (strbuf_append_vprintf cf w bp r).
Proof. intros; unfold strbuf_append_vprintf; mono. Qed.
Global Hint Resolve strbuf_append_vprintf_mono : mono.

Lemma strbuf_vprintf_mono fw cf : forall (w : st) (bp : option ptr) (r : formatted),
  below (strbuf_vprintf (restrict fw cf) w bp r) (strbuf_vprintf cf w bp r).
Proof. intros; unfold strbuf_vprintf; mono. Qed.
Global Hint Resolve strbuf_vprintf_mono : mono.

Lemma emit_mono fw cf : forall (w : st) (p : ptr) (l : list Z),
  below (emit (restrict fw cf) w p l) (emit cf w p l).
Proof.
  intros w p l; revert w p; induction l; intros; cbn [emit]; mono.
Qed.
Global Hint Resolve emit_mono : mono.

Lemma strbuf_vprnf_mono fw cf : forall (w : st) (bp : option ptr) (l : list Z),
  below (strbuf_vprnf (restrict fw cf) w bp l) (strbuf_vprnf cf w bp l).
Proof. intros; unfold strbuf_vprnf; mono. Qed.
Global Hint Resolve strbuf_vprnf_mono : mono.

Lemma strbuf_append_vprnf_mono fw cf : forall (w : st) (bp : option ptr) (l : list Z),
  below (strbuf_append_vprnf (restrict fw cf) w bp l) (strbuf_append_vprnf cf w bp l).
Proof. intros; unfold strbuf_append_vprnf; mono. Qed.
Global Hint Resolve strbuf_append_vprnf_mono : mono.

Lemma static_buf_block_eq fw cf : static_buf_block (restrict fw cf) = static_buf_block cf.
Proof. reflexivity. Qed.
Global Hint Rewrite static_buf_block_eq : mono.

Lemma to_size_eq fw cf : to_size (restrict fw cf) = to_size cf.
Proof. reflexivity. Qed.
Global Hint Rewrite to_size_eq : mono.

Lemma strbuf_append_read_mono fw cf : forall (w : st) (bp : option ptr) (r : rd),
  below (strbuf_append_read (restrict fw cf) w bp r) (strbuf_append_read cf w bp r).
Proof. intros; unfold strbuf_append_read; mono. Qed.
Global Hint Resolve strbuf_append_read_mono : mono.

Lemma strbuf_write_mono fw cf : forall (w : st) (bp : option ptr) (r : wr),
  below (strbuf_write (restrict fw cf) w bp r) (strbuf_write cf w bp r).
Proof. intros; unfold strbuf_write; mono. Qed.
Global Hint Resolve strbuf_write_mono : mono.

Lemma strview_write_mono fw cf : forall (m : mem) (src : option view) (r : wr),
  below (strview_write (restrict fw cf) m src r) (strview_write cf m src r).
Proof. intros; unfold strview_write; mono. Qed.
Global Hint Resolve strview_write_mono : mono.

Lemma to_bytes_eq fw cf : to_bytes (restrict fw cf) = to_bytes cf.
Proof. unfold to_bytes; autorewrite with mono; reflexivity. Qed.
Global Hint Rewrite to_bytes_eq : mono.

Lemma of_bytes_eq fw cf : of_bytes (restrict fw cf) = of_bytes cf.
Proof. unfold of_bytes; autorewrite with mono; reflexivity. Qed.
Global Hint Rewrite of_bytes_eq : mono.

Lemma xendian_swap16_eq fw cf : xendian_swap16 (restrict fw cf) = xendian_swap16 cf.
Proof. unfold xendian_swap16; autorewrite with mono; reflexivity. Qed.
Global Hint Rewrite xendian_swap16_eq : mono.

Lemma xendian_swap32_eq fw cf : xendian_swap32 (restrict fw cf) = xendian_swap32 cf.
Proof. unfold xendian_swap32; autorewrite with mono; reflexivity. Qed.
Global Hint Rewrite xendian_swap32_eq : mono.

Lemma xendian_swap64_eq fw cf : xendian_swap64 (restrict fw cf) = xendian_swap64 cf.
Proof. unfold xendian_swap64; autorewrite with mono; reflexivity. Qed.
Global Hint Rewrite xendian_swap64_eq : mono.

Lemma xendian_SWAP_eq fw cf : xendian_SWAP (restrict fw cf) = xendian_SWAP cf.
Proof. unfold xendian_SWAP; autorewrite with mono; reflexivity. Qed.
Global Hint Rewrite xendian_SWAP_eq : mono.

Lemma xendian_pack_eq fw cf : xendian_pack (restrict fw cf) = xendian_pack cf.
Proof. unfold xendian_pack; autorewrite with mono; reflexivity. Qed.
Global Hint Rewrite xendian_pack_eq : mono.

Lemma xendian_unpack_eq fw cf : xendian_unpack (restrict fw cf) = xendian_unpack cf.
Proof. unfold xendian_unpack; autorewrite with mono; reflexivity. Qed.

Lemma push_local_eq fw cf : push_local (restrict fw cf) = push_local cf.
Proof. unfold push_local; autorewrite with mono; reflexivity. Qed.
Global Hint Rewrite push_local_eq : mono.

Lemma STRBUF_PACK_mono fw cf : forall (o : order) (w : st) (dst : option ptr) (base : Z) (t : ity) (src : Z),
  below (STRBUF_PACK (restrict fw cf) o w dst base t src) (STRBUF_PACK cf o w dst base t src).
Proof. intros; unfold STRBUF_PACK; mono. Qed.
Global Hint Resolve STRBUF_PACK_mono : mono.

Lemma STRVIEW_UNPACK_mono fw cf : forall (o : order) (m : mem) (t : ity) (v : view),
  below (STRVIEW_UNPACK (restrict fw cf) o m t v) (STRVIEW_UNPACK cf o m t v).
Proof. intros; unfold STRVIEW_UNPACK; rewrite xendian_unpack_eq; mono. Qed.
Global Hint Resolve STRVIEW_UNPACK_mono : mono.

Lemma rot_word_eq fw cf : rot_word (restrict fw cf) = rot_word cf.
Proof. unfold rot_word; autorewrite with mono; reflexivity. Qed.
Global Hint Rewrite rot_word_eq : mono.

Lemma init_step_eq fw cf : init_step (restrict fw cf) = init_step cf.
Proof. unfold init_step; autorewrite with mono; reflexivity. Qed.
Global Hint Rewrite init_step_eq : mono.

Lemma aes_init_eq fw cf : aes_init (restrict fw cf) = aes_init cf.
Proof. unfold aes_init; autorewrite with mono; reflexivity. Qed.
Global Hint Rewrite aes_init_eq : mono.

Lemma aes128_init_eq fw cf : aes128_init (restrict fw cf) = aes128_init cf.
Proof. unfold aes128_init; autorewrite with mono; reflexivity. Qed.
Global Hint Rewrite aes128_init_eq : mono.

Lemma aes192_init_eq fw cf : aes192_init (restrict fw cf) = aes192_init cf.
Proof. unfold aes192_init; autorewrite with mono; reflexivity. Qed.
Global Hint Rewrite aes192_init_eq : mono.

Lemma aes256_init_eq fw cf : aes256_init (restrict fw cf) = aes256_init cf.
Proof. unfold aes256_init; autorewrite with mono; reflexivity. Qed.
Global Hint Rewrite aes256_init_eq : mono.

Lemma imul_mono fw cf : forall (a b : Z),
  below (imul (restrict fw cf) a b) (imul cf a b).
Proof. intros; unfold imul; mono. Qed.
Global Hint Resolve imul_mono : mono.

Lemma ctx_init_mono fw cf : forall (m : mem) (key : list Z) (ctx : ptr),
  below (ctx_init (restrict fw cf) m key ctx) (ctx_init cf m key ctx).
Proof. intros; unfold ctx_init; mono. Qed.
Global Hint Resolve ctx_init_mono : mono.

Lemma cypher_size_mono fw cf : forall (content_size : Z),
  below (cypher_size (restrict fw cf) content_size) (cypher_size cf content_size).
Proof. intros; unfold cypher_size; mono. Qed.
Global Hint Resolve cypher_size_mono : mono.

Lemma enc_blocks_mono fw cf : forall (n : nat) (m : mem) (buf ctx : ptr),
  below (enc_blocks (restrict fw cf) n m buf ctx) (enc_blocks cf n m buf ctx).
Proof.
  induction n; intros; cbn [enc_blocks]; mono.
Qed.
Global Hint Resolve enc_blocks_mono : mono.

Lemma enc256cbc_mono fw cf : forall (m : mem) (buf : ptr) (len : Z) (key ivec : list Z) (ctx : ptr),
  below (enc256cbc (restrict fw cf) m buf len key ivec ctx) (enc256cbc cf m buf len key ivec ctx).
Proof. intros; unfold enc256cbc; mono. Qed.
Global Hint Resolve enc256cbc_mono : mono.

Lemma dec_blocks_mono fw cf : forall (n : nat) (m : mem) (buf ctx : ptr) (this_xor : list Z),
  below (dec_blocks (restrict fw cf) n m buf ctx this_xor) (dec_blocks cf n m buf ctx this_xor).
Proof.
  induction n; intros; cbn [dec_blocks]; mono.
Qed.
Global Hint Resolve dec_blocks_mono : mono.

Lemma dec256cbc_mono fw cf : forall (m : mem) (buf : ptr) (len : Z) (key ivec : list Z) (ctx : ptr),
  below (dec256cbc (restrict fw cf) m buf len key ivec ctx) (dec256cbc cf m buf len key ivec ctx).
Proof. intros; unfold dec256cbc; mono. Qed.
Global Hint Resolve dec256cbc_mono : mono.

Lemma push_array_eq fw cf : push_array (restrict fw cf) = push_array cf.
Proof. reflexivity. Qed.
Global Hint Rewrite push_array_eq : mono.

Lemma encdec_with_ctx_on_stack_mono fw cf (f g : encdec) :
  (forall m buf len key ivec ctx, below (f m buf len key ivec ctx) (g m buf len key ivec ctx)) ->
  forall w base buf len key ivec,
  below (encdec_with_ctx_on_stack (restrict fw cf) f w base buf len key ivec)
        (encdec_with_ctx_on_stack cf g w base buf len key ivec).
Proof. intros F; intros; unfold encdec_with_ctx_on_stack; mono. Qed.
Global Hint Resolve encdec_with_ctx_on_stack_mono : mono.

Lemma strbuf_crypt_mono fw cf (f g : encdec) :
  (forall m buf len key ivec ctx, below (f m buf len key ivec ctx) (g m buf len key ivec ctx)) ->
  forall w bp base key ivec,
  below (strbuf_crypt (restrict fw cf) f w bp base key ivec) (strbuf_crypt cf g w bp base key ivec).
Proof. intros F; intros; unfold strbuf_crypt; mono. Qed.
Global Hint Resolve strbuf_crypt_mono : mono.

Lemma strbuf_encrypt_mono fw cf : forall w bp base key ivec,
  below (strbuf_encrypt (restrict fw cf) w bp base key ivec) (strbuf_encrypt cf w bp base key ivec).
Proof. intros; unfold strbuf_encrypt; mono. Qed.
Lemma strbuf_decrypt_mono fw cf : forall w bp base key ivec,
  below (strbuf_decrypt (restrict fw cf) w bp base key ivec) (strbuf_decrypt cf w bp base key ivec).
Proof. intros; unfold strbuf_decrypt; mono. Qed.
Global Hint Resolve strbuf_encrypt_mono strbuf_decrypt_mono : mono.
