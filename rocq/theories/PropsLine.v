(** Property theorems about receiving lines through a buffer (C145). *)
From Coq Require Import String.
From Verif Require Import Base Mem Libc StrviewModel Spec MemLemmas Alloc StrbufModel BufSpec ExampleLib BufExample PropsBuf
  IoModel IoSpec LineModel LineSpec LineProofs.
Local Open Scope string_scope.
Local Open Scope list_scope.
Local Open Scope Z_scope.

(** ** C145 *)
(** Whatever arrives when, the lines handed out and the rest in the buffer are those of what has been taken out of the file,
    nothing is lost and nothing is handed out twice; the buffer keeps its place and its capacity, and no other memory is written. *)
Theorem C145_lines_read : forall cf w p B e file evs, ready cf w p B -> pend_ok e -> no_line e (bf_data B) -> Forall is_byte file ->
  exists ls e' w' took file' rem, serve cf w (Some p) e file evs = Ok (ls, e', Some p, w', file') /\
    file = took ++ file' /\ lines_of (drop_half e (bf_data B ++ took)) ls (drop_half e' rem) /\
    buf_at cf (s_mem w') p (Buffer rem (bf_cap B) (bf_alloc B)) /\
    touches cf (s_mem w) (s_mem w') p p B /\ mem_wf (s_mem w') /\ no_fail w'.
Proof.
  intros cf w p B e file evs (W & Wm & Nf & HB) Pe N F.
  destruct (serve_ok cf W evs w p B e file Wm Nf HB Pe N F) as (ls & e' & w' & took & file' & rem & x & H1 & H2 & H3 & H4 & H5 & H6 & H7 & H8 & H9 & H10 & _).
  exists ls, e', w', took, file', rem. auto 10.
Qed.
Print Assumptions C145_lines_read.

(** With two characters of capacity more than the longest line the file is read to its end, at the latest when something was
    ready as often as the file has characters: then all its lines have been handed out. *)
Theorem C145_all_read : forall cf w p B e file evs n, ready cf w p B -> pend_ok e -> no_line e (bf_data B) -> Forall is_byte file ->
  short_lines n (bf_data B ++ file) -> n + 2 <= bf_cap B -> (List.length file <= count_ready evs)%nat ->
  exists ls e' w' rem, serve cf w (Some p) e file evs = Ok (ls, e', Some p, w', []) /\
    lines_of (drop_half e (bf_data B ++ file)) ls (drop_half e' rem) /\
    buf_at cf (s_mem w') p (Buffer rem (bf_cap B) (bf_alloc B)).
Proof.
  intros cf w p B e file evs n (W & Wm & Nf & HB) Pe N F S C L.
  destruct (serve_ok cf W evs w p B e file Wm Nf HB Pe N F) as (ls & e' & w' & took & file' & rem & x & H1 & H2 & H3 & H4 & H5 & H6 & H7 & H8 & H9 & H10 & H11 & _).
  rewrite (H11 n S C L) in *. rewrite app_nil_r in H2. subst took. exists ls, e', w', rem. auto.
Qed.
Print Assumptions C145_all_read.

Definition served (x : outcome (list (list Z) * Z * option ptr * st * list Z)) :=
  match x with Ok (ls, e, bp, w, file) => Some (ls, e, bp, shows gcc64 (ret_view gcc64 bp w), file) | _ => None end.
Definition typed (x : outcome (list (list Z) * Z * option ptr * st)) :=
  match x with Ok (ls, e, bp, w) => Some (ls, e, bp, shows gcc64 (ret_view gcc64 bp w)) | _ => None end.
Definition lf_file : list Z := [13; 10] ++ bs "12" ++ [10] ++ bs "345678" ++ [13; 10; 10] ++ bs "9".
Definition lf_evs : list (option nat) := [Some 1; None; Some 3; Some 0; Some 9; Some 5; Some 1; Some 1; Some 1; Some 1; Some 1; Some 1; Some 1; Some 1; Some 1; Some 1; Some 1]%nat.
Example C145_read_ex : ready gcc64 w_move pfix b_fixed /\ pend_ok 0 /\ no_line 0 (bf_data b_fixed) /\ Forall is_byte lf_file
  /\ short_lines 6 (bf_data b_fixed ++ lf_file) /\ 6 + 2 <= bf_cap b_fixed /\ (List.length lf_file <= count_ready lf_evs)%nat
  /\ served (serve gcc64 w_move (Some pfix) 0 lf_file lf_evs) = Some ([bs "abcdef"; bs "12"; bs "345678"; []], 10, Some pfix, Some (Some (bs "9"), 10), [])
  /\ lines_of (bs "abcdef" ++ lf_file) [bs "abcdef"; bs "12"; bs "345678"; []] (bs "9").
Proof.
  split; [exact fix_ready|]. split; [now left|]. split; [reflexivity|]. split; [apply byteb_ok; vm_compute; reflexivity|].
  split; [apply longest_ok; vm_compute; discriminate|]. split; [vm_compute; discriminate|]. split; [vm_compute; repeat constructor|].
  split; [vm_compute; reflexivity|].
  do 4 (eapply lines_one; [reflexivity|]). now constructor.
Qed.

(** One character more than the longest line, room for the line and a terminator of one character, is not enough: the second
    half of a CR LF stays in the buffer, and if the next line fills the buffer nothing will ever be read again. *)
Theorem C145_room_refuted : exists w p B n file, ready gcc64 w p B /\ no_line 0 (bf_data B) /\ Forall is_byte file /\
  short_lines n (bf_data B ++ file) /\ n + 1 <= bf_cap B /\
  exists evs, forall evs2, exists w' file', serve gcc64 w (Some p) 0 file (evs ++ evs2) = Ok ([bs "abcdef"], 13, Some p, w', file') /\ file' = [13; 10].
Proof.
  exists w_move, pfix, b_fixed, 9, ([13; 10] ++ bs "123456789" ++ [13; 10]).
  split; [exact fix_ready|]. split; [reflexivity|]. split; [apply byteb_ok; vm_compute; reflexivity|].
  split; [apply longest_ok; vm_compute; discriminate|]. split; [vm_compute; discriminate|].
  exists [Some 1; Some 20]%nat. intro evs2.
  destruct fix_ready as (W & Wm & Nf & HB).
  destruct (serve_ok gcc64 W [Some 1; Some 20]%nat w_move pfix b_fixed 0 ([13; 10] ++ bs "123456789" ++ [13; 10]) Wm Nf HB (or_introl eq_refl) eq_refl)
    as (ls & e' & w' & took & file' & rem & x & H1 & H2 & H3 & H4 & H5 & H6 & H7 & H8 & H9 & H10 & _); [apply byteb_ok; vm_compute; reflexivity|].
  assert (match serve gcc64 w_move (Some pfix) 0 ([13; 10] ++ bs "123456789" ++ [13; 10]) [Some 1; Some 20]%nat with
    | Ok (ls, e, bp, w, f) => Some (ls, e, f, strbuf_view gcc64 w bp) | _ => None end = Some ([bs "abcdef"], 13, [13; 10], Ok (vw 2 24 10))) as E
    by (vm_compute; reflexivity).
  rewrite H1 in E. rewrite (PackProofs.strbuf_view_ok gcc64 w' pfix _ W H7) in E. injection E as -> -> -> Lr.
  cbn [bf_data] in Lr.
  rewrite (serve_app gcc64 _ evs2 _ _ _ _ _ _ _ _ _ H1).
  destruct (serve_ok gcc64 W evs2 w' pfix _ 13 [13; 10] H9 H10 H7 H3 H4) as (ls2 & e2 & w2 & took2 & file2 & rem2 & x2 & K1 & _ & _ & _ & _ & _ & _ & _ & _ & _ & _ & K);
    [repeat constructor; unfold is_byte; lia|].
  destruct (K Lr) as (-> & -> & -> & _). rewrite K1. cbn [bind]. exists w2, [13; 10]. rewrite app_nil_r. auto.
Qed.
Print Assumptions C145_room_refuted.

(** The loop of the test suite, one character at a time. *)
Theorem C145_typed : forall cf w p B e cs, ready cf w p B -> pend_ok e -> no_line e (bf_data B) -> Forall is_byte cs ->
  line_room cf B (bf_data B ++ cs) ->
  exists ls e' rem p' B' w', type_chars cf w (Some p) e cs = Ok (ls, e', Some p', w') /\
    lines_of (drop_half e (bf_data B ++ cs)) ls (drop_half e' rem) /\
    buf_at cf (s_mem w') p' B' /\ bf_data B' = rem /\ bf_alloc B' = bf_alloc B /\
    touches cf (s_mem w) (s_mem w') p p' B /\ mem_wf (s_mem w') /\ no_fail w'.
Proof.
  intros cf w p B e cs (W & Wm & Nf & HB) Pe N F R.
  destruct (type_chars_ok cf W cs w p B e Wm Nf HB Pe N F R) as (ls & e' & rem & p' & B' & w' & H1 & _ & _ & H2). exists ls, e', rem, p', B', w'. auto.
Qed.
Print Assumptions C145_typed.
Example C145_typed_ex : ready gcc64 w_move pdyn b_hello /\ no_line 0 (bf_data b_hello) /\ line_room gcc64 b_hello (bf_data b_hello ++ lf_file)
  /\ line_room gcc64 b_fixed (bf_data b_fixed ++ lf_file)
  /\ typed (type_chars gcc64 w_move (Some pdyn) 0 (bs " world" ++ lf_file)) = Some ([bs "hello world"; bs "12"; bs "345678"; []], 10, Some (Ptr (PBlk 5) 0), Some (Some (bs "9"), 16))
  /\ typed (type_chars gcc64 w_move (Some pfix) 0 lf_file) = Some ([bs "abcdef"; bs "12"; bs "345678"; []], 10, Some pfix, Some (Some (bs "9"), 10)).
Proof.
  split; [exact dyn_ready|]. split; [reflexivity|].
  split; [split; [now left|vm_compute; discriminate]|].
  split; [exists 6; split; [apply longest_ok; vm_compute; discriminate|split; [vm_compute; discriminate|now left]]|].
  split; vm_compute; reflexivity.
Qed.

(** Without room the line so far is lost, silently: a fixed buffer which is full is emptied by the next character, which is lost too. *)
Theorem C145_overlong : forall cf w p B e c, ready cf w p B -> is_byte c -> dyn B = false -> Zlen (bf_data B) = bf_cap B -> sums_ok cf (bf_cap B + 1) ->
  exists w', type_char cf w (Some p) e c = Ok ([], e, Some p, w') /\ buf_at cf (s_mem w') p (Buffer [] (bf_cap B) (bf_alloc B)) /\
    touches cf (s_mem w) (s_mem w') p p B.
Proof. intros cf w p B e c (W & Wm & Nf & HB). now apply type_over. Qed.
Print Assumptions C145_overlong.
Theorem C145_typed_refuted : exists w p B cs, ready gcc64 w p B /\ no_line 0 (bf_data B) /\ Forall is_byte cs /\
  lines_of (bf_data B ++ cs) [bs "abcdef12345"] [] /\
  exists e w', type_chars gcc64 w (Some p) 0 cs = Ok ([[]], e, Some p, w').
Proof.
  exists w_move, pfix, b_fixed, (bs "12345" ++ [10]). split; [exact fix_ready|]. split; [reflexivity|]. split; [apply byteb_ok; vm_compute; reflexivity|].
  split; [eapply lines_one; [reflexivity|]; now constructor|]. 
  assert (typed (type_chars gcc64 w_move (Some pfix) 0 (bs "12345" ++ [10])) = Some ([[]], 10, Some pfix, Some (Some [], 10))) as E by (vm_compute; reflexivity).
  destruct (type_chars gcc64 w_move (Some pfix) 0 (bs "12345" ++ [10])) as [[[[ls e] bp] w']| |]; try discriminate.
  unfold typed in E. injection E as -> -> -> _. eauto.
Qed.
Print Assumptions C145_typed_refuted.
