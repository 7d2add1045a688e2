(** Property theorems about strbuf_prnf and strbuf_append_prnf on top of prnf with
    PRNF_SUPPORT_EXTENSIONS (C160): strings handed over with %n. *)
From Coq Require Import String.
From Verif Require Import Base Mem Libc Alloc StrviewModel Spec MemLemmas NumSpec StrbufModel BufSpec
  PrnfModel PrnfSpec PrnfSpec2 PrnfProofs6 PrnfBufModel PrnfExtModel PrnfExtSpec PrnfExtProofs3 PrnfExtBufModel PrnfExtProofs4
  ExampleLib BufExample PropsNum PropsBuf PropsPrnf PropsPrnfExt.
From Verif Require StrbufProofs7.
Local Open Scope string_scope.
Local Open Scope list_scope.
Local Open Scope Z_scope.

(** The format is not in the buffer, and neither is any string. *)
Definition off_buffer {D} (cf : cfg) (p : ptr) (B : buffer) (fmt : ptr) (l : list (piece D)) : Prop :=
  apart cf p B fmt (Zlen (format_of l) + 1) /\ Forall (piece_apart cf p B) l.

(** ** The buffer gets the text, or is emptied if it cannot; the strings are freed in both cases, and nothing else changes *)
Theorem C160_prnf : forall cf A heap w p B fmt l va, ready cf w p B -> plain_pieces cf l -> once l -> on_heap heap (s_mem w) fmt l -> off_buffer cf p B fmt l ->
  let t := text_of cf l in Zlen t < INT_MAX -> sums_ok cf (Zlen t) ->
  exists m1, released (s_mem w) m1 (given_away l) /\
    becomes cf (with_mem w m1) p B (strbuf_prnf_n cf A heap w (Some p) fmt (args_of cf l ++ va)) (put_all cf B t).
Proof.
  intros cf A heap w p B fmt l va (H1 & H2 & H3 & H4) Hp Ho (G1 & G2 & G3) (E1 & E2) t Ht Hs. destruct (pieces_plain cf A l 0 Hp) as [K E].
  unfold t, text_of in *. rewrite <- E in *. now apply prnf_n_ok.
Qed.
Print Assumptions C160_prnf.
Theorem C160_append_prnf : forall cf A heap w p B fmt l va, ready cf w p B -> plain_pieces cf l -> once l -> on_heap heap (s_mem w) fmt l -> off_buffer cf p B fmt l ->
  let t := text_of cf l in Zlen t < INT_MAX -> sums_ok cf (Zlen (bf_data B) + Zlen t) ->
  exists m1, released (s_mem w) m1 (given_away l) /\
    becomes cf (with_mem w m1) p B (strbuf_append_prnf_n cf A heap w (Some p) fmt (args_of cf l ++ va)) (put_all cf B (bf_data B ++ t)).
Proof.
  intros cf A heap w p B fmt l va (H1 & H2 & H3 & H4) Hp Ho (G1 & G2 & G3) (E1 & E2) t Ht Hs. destruct (pieces_plain cf A l 0 Hp) as [K E].
  unfold t, text_of in *. rewrite <- E in *. now apply append_prnf_n_ok.
Qed.
Print Assumptions C160_append_prnf.

(** After the call each string handed over is no longer allocated. *)
Theorem C160_freed : forall cf A heap w p B fmt l va b, ready cf w p B -> plain_pieces cf l -> once l -> on_heap heap (s_mem w) fmt l -> off_buffer cf p B fmt l ->
  Zlen (text_of cf l) < INT_MAX -> sums_ok cf (Zlen (bf_data B) + Zlen (text_of cf l)) -> In b (given_away l) ->
  (exists v p' w' k, strbuf_prnf_n cf A heap w (Some p) fmt (args_of cf l ++ va) = Ok (v, p', w') /\ nth_error (s_mem w') b = Some k /\ b_live k = false) /\
  (exists v p' w' k, strbuf_append_prnf_n cf A heap w (Some p) fmt (args_of cf l ++ va) = Ok (v, p', w') /\ nth_error (s_mem w') b = Some k /\ b_live k = false).
Proof.
  intros cf A heap w p B fmt l va b H Hp Ho Hh Hb Ht Hs Hin.
  assert (p_obj p <> PBlk b) as Np.
  { intros K. destruct Hb as [_ Hb]. unfold given_away in Hin. apply in_concat in Hin as (g & G1 & G2). apply in_map_iff in G1 as (z & <- & Hz).
    rewrite Forall_forall in Hb. specialize (Hb z Hz). destruct z as [i|c [[|b'|li] ofs] s]; cbn in G2; try tauto. destruct G2 as [->|[]].
    cbn [piece_apart p_obj] in Hb. destruct Hb as [Hb|Hb]; [discriminate|congruence]. }
  assert (forall r B', (exists m1, released (s_mem w) m1 (given_away l) /\ becomes cf (with_mem w m1) p B r B') ->
    exists v p' w' k, r = Ok (v, p', w') /\ nth_error (s_mem w') b = Some k /\ b_live k = false) as F.
  { intros r B' (m1 & (L & R & _) & p' & w' & -> & _ & T & _). destruct (R b Hin) as (k & k' & K1 & _ & K3 & K4). cbn [with_mem s_mem] in T.
    destruct T as (b0 & b1 & A1 & _ & _ & _ & _ & _ & A5 & _). exists (buf_view cf p' B'), (Some p'), w', k'. split; auto. split; auto. rewrite A5; auto.
    - congruence.
    - apply nth_error_Some. congruence. }
  split; eapply F; [apply C160_prnf|apply C160_append_prnf]; auto.
  eapply StrbufProofs7.sums_ok_le; [|exact Hs]. pose proof (Zlen_nonneg (bf_data B)). lia.
Qed.
Print Assumptions C160_freed.

(** ** Without a buffer prnf is not called: the strings handed over are not freed *)
Theorem C160_no_buffer_leaks : forall cf A heap w bp fmt (l : list (piece (dbl A))) va b, bp = None \/ bp = Some null -> on_heap heap (s_mem w) fmt l -> In b (given_away l) ->
  (exists v p' w' k, strbuf_prnf_n cf A heap w bp fmt (args_of cf l ++ va) = Ok (v, p', w') /\ nth_error (s_mem w') b = Some k /\ b_live k = true) /\
  (exists v p' w' k, strbuf_append_prnf_n cf A heap w bp fmt (args_of cf l ++ va) = Ok (v, p', w') /\ nth_error (s_mem w') b = Some k /\ b_live k = true).
Proof.
  intros cf A heap w bp fmt l va b Hbp (_ & Hm & _) Hin.
  assert (exists k, nth_error (s_mem w) b = Some k /\ b_live k = true) as (k & K1 & K2).
  { unfold given_away in Hin. apply in_concat in Hin as (g & G1 & G2). apply in_map_iff in G1 as (z & <- & Hz).
    rewrite Forall_forall in Hm. specialize (Hm z Hz). destruct z as [i|c [[|b'|li] ofs] s]; cbn in G2; try tauto. destruct G2 as [->|[]].
    cbn [piece_mem] in Hm. destruct Hm as [[Hm _]|((( k & A1 & _) & _) & _)]; [discriminate|]. cbn [p_obj access] in A1.
    destruct (nth_error (s_mem w) b) as [k0|]; [|discriminate]. exists k0. split; auto. destruct (b_live k0); [reflexivity|discriminate]. }
  split; exists INVALID, bp, w, k; (split; [destruct Hbp as [->| ->]; reflexivity|auto]).
Qed.
Print Assumptions C160_no_buffer_leaks.

(** "<%n|%-8.5n>" on a dynamic buffer that moves, on one that stays and on a fixed buffer that is too small. *)
Definition gm : mem := xm ++ [hblk 24576 (bs "LOTS" ++ [0]); hblk 28672 (bs "A few bananas" ++ [0])].
Definition g_move : st := St gm (fun _ => Choice false true 0).
Definition g_stay : st := St gm (fun _ => Choice false false 0).
Definition gpieces {D} : list (piece D) :=
  [Item (Text (bs "<")); Given nc (Ptr (PBlk 5) 0) (bs "LOTS"); Item (Text (bs "|"));
   Given (Conv [FMinus] (WNum 8) (PNum 5) Lint) (Ptr (PBlk 6) 0) (bs "A few bananas"); Item (Text (bs ">"))].
Definition gfmt : ptr := Ptr (PLit (bs "<%n|%-8.5n>" ++ [0])) 0.
Definition gargs {D} : list (arg D) := [AP (Ptr (PBlk 5) 0); AP (Ptr (PBlk 6) 0)].
(** Which of the blocks that existed before the call are alive after it. *)
Definition alive_b (r : outcome (view * option ptr * st)) : option (list bool) := match r with Ok (_, _, w) => Some (map b_live (firstn 7 (s_mem w))) | _ => None end.
Example C160_ex : forall A, ready gcc64 g_move pdyn b_hello /\ ready gcc64 g_move pfix b_fixed
  /\ plain_pieces gcc64 (@gpieces (dbl A)) /\ once (@gpieces (dbl A)) /\ on_heap lib gm gfmt (@gpieces (dbl A))
  /\ off_buffer gcc64 pdyn b_hello gfmt (@gpieces (dbl A)) /\ off_buffer gcc64 pfix b_fixed gfmt (@gpieces (dbl A))
  /\ args_of gcc64 (@gpieces (dbl A)) = gargs /\ given_away (@gpieces (dbl A)) = [5; 6]%nat /\ text_of gcc64 (@gpieces (dbl A)) = bs "<LOTS|A few   >"
  /\ shows gcc64 (strbuf_prnf_n gcc64 A lib g_move (Some pdyn) gfmt gargs) = Some (Some (bs "<LOTS|A few   >"), 16)
  /\ alive_b (strbuf_prnf_n gcc64 A lib g_move (Some pdyn) gfmt gargs) = Some [false; true; true; true; true; false; false]
  /\ shows gcc64 (strbuf_append_prnf_n gcc64 A lib g_stay (Some pdyn) gfmt gargs) = Some (Some (bs "hello<LOTS|A few   >"), 32)
  /\ alive_b (strbuf_append_prnf_n gcc64 A lib g_stay (Some pdyn) gfmt gargs) = Some [true; true; true; true; true; false; false]
  /\ shows gcc64 (strbuf_append_prnf_n gcc64 A lib g_move (Some pfix) gfmt gargs) = Some (Some [], 10)
  /\ alive_b (strbuf_append_prnf_n gcc64 A lib g_move (Some pfix) gfmt gargs) = Some [true; true; true; true; true; false; false]
  /\ alive_b (strbuf_append_prnf_n gcc64 A lib g_move None gfmt gargs) = Some [true; true; true; true; true; true; true].
Proof.
  intros A. assert (mem_wf gm) as Wg by wf_check. assert (no_fail g_move) as Nf by (intros n; reflexivity).
  split. { split; [exact gcc64_wf|]. split; [exact Wg|]. split; [exact Nf|]. buf_check 4096. }
  split. { split; [exact gcc64_wf|]. split; [exact Wg|]. split; [exact Nf|]. buf_check 12288. }
  split; [items_check; auto|]. split.
  { cbn. repeat (split; try exact Logic.I; try apply Forall_nil; try (apply Forall_cons; [repeat (apply Forall_cons; [intros K; cbn in K; try congruence; contradiction|]); apply Forall_nil|apply Forall_nil])). }
  split; [on_heap_check|]. do 2 (split; [split; [left; discriminate|]; repeat (apply Forall_cons; [first [exact Logic.I | right; discriminate]|]); apply Forall_nil|]).
  repeat split; vm_compute; reflexivity.
Qed.
