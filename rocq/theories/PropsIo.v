(** Property theorems about the file descriptor accessories (C54, C55). *)
From Coq Require Import String.
From Verif Require Import Base Mem Libc StrviewModel Spec MemLemmas Alloc StrbufModel BufSpec ExampleLib BufExample PropsBuf
  IoModel IoSpec IoProofs.
Local Open Scope string_scope.
Local Open Scope list_scope.
Local Open Scope Z_scope.

(** ** C54 *)
Theorem C54_append_read : forall cf w p B r, ready cf w p B -> (forall l, r = RdBytes l -> Forall is_byte l) ->
  let got := delivered (bf_cap B - Zlen (bf_data B)) r in
  exists w', strbuf_append_read cf w (Some p) r = Ok (rd_result r got, Some p, w') /\
    buf_at cf (s_mem w') p (Buffer (bf_data B ++ got) (bf_cap B) (bf_alloc B)) /\
    touches cf (s_mem w) (s_mem w') p p B /\ mem_wf (s_mem w') /\ no_fail w' /\ (got = [] -> w' = w).
Proof. intros cf w p B r (H1 & H2 & H3 & H4). now apply append_read_ok. Qed.
Print Assumptions C54_append_read.
Example C54_ex : ready gcc64 w_move pdyn b_hello /\ Forall is_byte (bs "abcd")
  /\ bf_cap b_hello - Zlen (bf_data b_hello) = 3
  /\ delivered 3 (RdBytes (bs "abcd")) = bs "abc"
  /\ (let! (n, bp, w') := strbuf_append_read gcc64 w_move (Some pdyn) (RdBytes (bs "abcd")) in
      let! v := strbuf_view gcc64 w' bp in let! l := load_bytes (s_mem w') (v_data v) 9 in Ok (n, v_size v, l))
     = Ok (3, 8, bs "helloabc" ++ [0]).
Proof. split; [exact dyn_ready|]. split; [(apply byteb_ok; vm_compute; reflexivity)|]. repeat split; vm_compute; reflexivity. Qed.

(** ** C55 *)
Theorem C55_write : forall cf w p B r, ready cf w p B ->
  exists p' w', strbuf_write cf w (Some p) r = Ok (wr_result r (taken (bf_data B) r), taken (bf_data B) r, Some p', w') /\
    buf_at cf (s_mem w') p' (Buffer (left_over (bf_data B) r) (bf_cap B) (bf_alloc B)) /\
    touches cf (s_mem w) (s_mem w') p p' B /\ mem_wf (s_mem w') /\ no_fail w'.
Proof. intros cf w p B r (H1 & H2 & H3 & H4). now apply write_ok. Qed.
Print Assumptions C55_write.

(** Any interleaving of reads and writes: the bytes written so far and the bytes still in the
    buffer are together exactly the initial contents followed by the bytes read. *)
Theorem C55_transfer : forall cf w p B xs, ready cf w p B -> Forall io_ok xs ->
  exists out p' w' rest, run_io cf w (Some p) xs = Ok (out, Some p', w') /\
    buf_at cf (s_mem w') p' (Buffer rest (bf_cap B) (bf_alloc B)) /\
    out ++ rest = bf_data B ++ queue_in (bf_cap B) (bf_data B) xs /\
    touches cf (s_mem w) (s_mem w') p p' B /\ mem_wf (s_mem w') /\ no_fail w'.
Proof.
  intros cf w p B xs (H1 & H2 & H3 & H4) Fx. destruct (run_io_ok cf xs w p B H1 H2 H3 H4 Fx) as (p' & w' & E & A1 & A2 & A3 & A4).
  exists (queue_out (bf_cap B) (bf_data B) xs), p', w', (queue_end (bf_cap B) (bf_data B) xs). split; auto. split; auto. split; [apply queue_conserved|]. auto.
Qed.
Print Assumptions C55_transfer.

(** As many accepted writes as there are bytes, interrupted by any number of errors and
    rejected writes, output exactly the contents. *)
Theorem C55_drained : forall cf w p B rs, ready cf w p B ->
  Zlen (bf_data B) <= Zlen (filter accepts rs) ->
  exists p' w', run_io cf w (Some p) (map IoWrite rs) = Ok (bf_data B, Some p', w') /\
    buf_at cf (s_mem w') p' (Buffer [] (bf_cap B) (bf_alloc B)).
Proof.
  intros cf w p B rs (H1 & H2 & H3 & H4) Hl.
  assert (Forall io_ok (map IoWrite rs)) as Fx by (apply Forall_map, Forall_forall; intros x _; exact I).
  destruct (run_io_ok cf (map IoWrite rs) w p B H1 H2 H3 H4 Fx) as (p' & w' & E & A1 & A2 & A3 & A4).
  pose proof (queue_conserved (bf_cap B) (map IoWrite rs) (bf_data B)) as Q.
  rewrite (queue_drained (bf_cap B) rs (bf_data B)) in * by (unfold Zlen in Hl; lia). rewrite queue_in_writes, !app_nil_r in Q. rewrite Q in E. eauto.
Qed.
Print Assumptions C55_drained.

Theorem C55_strview_write : forall cf m v l rs, wf_cfg cf -> has_view m v l ->
  exists out rest v', run_view cf m v rs = Ok (out, v') /\ out ++ rest = l /\
    (rest = [] -> v_size v' = 0) /\ (rest <> [] -> has_view m v' rest /\ v' = subview v (Zlen out) (Zlen rest)) /\
    (Zlen l <= Zlen (filter accepts rs) -> rest = []).
Proof.
  intros cf m v l rs W H. destruct (run_view_ok cf m rs v l W H) as (v' & E & R1 & R2).
  pose proof (queue_conserved 0 (map IoWrite rs) l) as Q. rewrite queue_in_writes, app_nil_r in Q.
  exists (queue_out 0 l (map IoWrite rs)), (queue_end 0 l (map IoWrite rs)), v'. split; auto. split; auto. split; auto. split.
  - intros Hn. destruct (R2 Hn) as (R3 & R4). split; auto. rewrite R4. f_equal. rewrite <- Q at 1. rewrite Zlen_app. lia.
  - intros Hl. apply queue_drained. unfold Zlen in Hl. lia.
Qed.
Print Assumptions C55_strview_write.

Definition schedule : list io :=
  [ IoWrite (WrCount 2); IoRead (RdBytes (bs "-wide-world")); IoWrite WrError; IoWrite (WrCount 0); IoWrite (WrCount 4); IoRead RdError; IoRead (RdBytes (bs "!")) ].
Example C55_ex : ready gcc64 w_move pdyn b_hello /\ Forall io_ok schedule
  /\ queue_in 8 (bs "hello") schedule = bs "-wide!"
  /\ (let! (out, bp, w') := run_io gcc64 w_move (Some pdyn) schedule in
      let! v := strbuf_view gcc64 w' bp in let! l := load_bytes (s_mem w') (v_data v) 6 in Ok (out, v_size v, l))
     = Ok (bs "hello-", 5, bs "wide!" ++ [0]).
Proof.
  split; [exact dyn_ready|]. split; [|split; vm_compute; reflexivity].
  unfold schedule. repeat (apply Forall_cons; [try exact I; (apply byteb_ok; vm_compute; reflexivity)|]). apply Forall_nil.
Qed.
Definition writes : list wr := [WrCount 3; WrError; WrCount 1; WrCount 0; WrCount 9; WrCount 1; WrCount 1].
Example C55_drained_ex : Zlen (bf_data b_hello) <= Zlen (filter accepts writes)
  /\ (let! (out, bp, w') := run_io gcc64 w_move (Some pdyn) (map IoWrite writes) in Ok out) = Ok (bs "hello").
Proof. split; vm_compute; [discriminate|reflexivity]. Qed.
Example C55_view_ex : has_view xm wide (bs "wide") /\ run_view gcc64 xm wide [WrCount 1; WrError; WrCount 2] = Ok (bs "wid", vw 1 3 1)
  /\ run_view gcc64 xm wide writes = Ok (bs "wide", INVALID).
Proof. split; [view_check|]. split; vm_compute; reflexivity. Qed.
