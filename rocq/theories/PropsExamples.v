(** Property theorems about the default allocator and the example programs (C113-C117). *)
From Coq Require Import String QArith.
From Verif Require Import Base Mem Libc StrviewModel Spec MemLemmas Alloc StrbufModel BufSpec StrbufProofs NumSpec StrnumModel FloatSpec
  ExamplesModel ExamplesSpec ExamplesProofs ExamplesProofs2 ExamplesProofs3 ExampleLib BufExample PropsNum.
Local Open Scope string_scope.
Local Open Scope list_scope.
Local Open Scope Z_scope.

(** ** C113 the default allocator and the allocators of the examples keep the contract of strbuf.h *)
(** The allocation primitive assumed of every allocator in the model of strbuf.c is what this C code
    does on the heap of the C library. *)
Theorem C113_matches_model : forall cf asserting w a p n old, held (s_mem w) a p old ->
  exists r w', alloc_call cf w a p n = Ok (r, w') /\
    allocfunc cf asserting w a p n = Ok (if asserting && negb (n =? 0) && is_null r then None else Some (r, w')).
Proof. exact allocfunc_is_alloc_call. Qed.
Print Assumptions C113_matches_model.
Theorem C113_free : forall cf asserting w a p old, held (s_mem w) a p old ->
  exists w', allocfunc cf asserting w a p 0 = Ok (Some (null, w')) /\
    match old with Some (b, _) => freed (s_mem w) (s_mem w') b | None => s_mem w' = s_mem w end.
Proof. exact allocfunc_free. Qed.
Print Assumptions C113_free.
Theorem C113_fails : forall cf asserting w a p n old, held (s_mem w) a p old -> 0 < n -> ch_fail (s_orc w O) = true ->
  allocfunc cf asserting w a p n = Ok (if asserting then None else Some (null, St (s_mem w) (next_orc (s_orc w)))).
Proof. exact allocfunc_fails. Qed.
Print Assumptions C113_fails.
Theorem C113_grants : forall cf asserting w a p n old, wf_cfg cf -> mem_wf (s_mem w) -> held (s_mem w) a p old -> 0 < n ->
  ch_fail (s_orc w O) = false ->
  exists p' w', allocfunc cf asserting w a p n = Ok (Some (p', w')) /\ granted cf (s_mem w) (s_mem w') a old p' n.
Proof. exact allocfunc_grants. Qed.
Print Assumptions C113_grants.
(** With the assertion no call that returns gives NULL for memory asked for. *)
Theorem C113_assert : forall cf w a p n old p' w', held (s_mem w) a p old -> n <> 0 ->
  allocfunc cf true w a p n = Ok (Some (p', w')) -> is_null p' = false.
Proof.
  intros cf w a p n old p' w' H Hn E. destruct (allocfunc_is_alloc_call cf true w a p n old H) as (r & w1 & _ & E2). rewrite E2 in E.
  rewrite (proj2 (Z.eqb_neq n 0)) in E by auto. cbn [andb negb] in E. destruct (is_null r) eqn:Er; [discriminate|]. injection E as <- <-. exact Er.
Qed.
Print Assumptions C113_assert.
(** The block of the dynamic buffer "hello" is made larger, in place and moved, and given back; an allocator that
    is out of memory returns NULL or stops the program. *)
Example C113_ex : held xm heapA pdyn (Some (0%nat, bufblk gcc64 4096 b_hello)) /\ held xm heapA null None
  /\ ch_fail (s_orc w_move O) = false
  /\ (exists w', allocfunc gcc64 true w_stay heapA pdyn 100 = Ok (Some (pdyn, w')))
  /\ (exists w', allocfunc gcc64 true w_move heapA pdyn 100 = Ok (Some (Ptr (PBlk 5) 0, w')))
  /\ (exists w', allocfunc gcc64 true w_move heapA pdyn 0 = Ok (Some (null, w')))
  /\ (exists w', allocfunc gcc64 true w_move heapA null 7 = Ok (Some (Ptr (PBlk 5) 0, w')))
  /\ allocfunc gcc64 true (St xm (fun _ => Choice true true 0)) heapA pdyn 100 = Ok None
  /\ (exists w', allocfunc gcc64 false (St xm (fun _ => Choice true true 0)) heapA pdyn 100 = Ok (Some (null, w')))
  /\ allocfunc gcc64 true w_move heapA (Ptr (PBlk 1) 0) 0 = UB UB_alloc.
Proof.
  split; [vm_compute; auto|]. split; [reflexivity|]. split; [reflexivity|]. do 4 (split; [eexists; reflexivity|]).
  split; [reflexivity|]. split; [eexists; reflexivity|]. reflexivity.
Qed.

(** ** C114 the heap example programs *)
Theorem C114_says_it_twice : forall cf w dflt a words ls head hl tail tl, wf_cfg cf -> c_ptr cf = true -> mem_wf (s_mem w) -> no_fail w ->
  is_dyn (chosen dflt a) = true -> strings_at (s_mem w) words ls -> strings_at (s_mem w) [head; tail] [hl; tl] ->
  Zlen (hl ++ concat ls ++ concat ls ++ tl) + c_step cf <= INT_MAX ->
  exists w', say_twice cf w dflt a words head tail = Ok (hl ++ concat ls ++ concat ls ++ tl, Some null, w') /\
    no_trace (s_mem w) (s_mem w') /\ mem_wf (s_mem w') /\ no_fail w'.
Proof. exact say_twice_ok. Qed.
Print Assumptions C114_says_it_twice.
(** The words of default-stdlib-alloc.c and what it prints. *)
Definition heap_words : list (list Z) := map bs ["This "; "buffer "; "lives "; "on "; "the "; "heap. "].
Theorem C114_program : forall cf w dflt words head tail, wf_cfg cf -> c_ptr cf = true -> c_step cf <= 65536 -> mem_wf (s_mem w) -> no_fail w ->
  is_dyn dflt = true -> strings_at (s_mem w) words heap_words -> strings_at (s_mem w) [head; tail] [bs "Let's say this twice {"; bs "}"] ->
  exists w', say_twice cf w dflt None words head tail =
    Ok (bs "Let's say this twice {This buffer lives on the heap. This buffer lives on the heap. }", Some null, w') /\
    no_trace (s_mem w) (s_mem w').
Proof.
  intros cf w dflt words head tail W Hc Hs Wm Nf D Hw Hht.
  destruct (say_twice_ok cf w dflt None words heap_words head _ tail _ W Hc Wm Nf D Hw Hht) as (w' & E & T & _).
  { match goal with |- Zlen ?x + _ <= _ => let n := eval vm_compute in (Zlen x) in change (Zlen x) with n end. unfold INT_MAX. lia. }
  exists w'. split; auto.
Qed.
Print Assumptions C114_program.
Definition zs (s : string) : list Z := bs s ++ [0].
Definition prog_mem : mem :=
  [ blk 4096 (zs "This "); blk 8192 (zs "buffer "); blk 12288 (zs "lives "); blk 16384 (zs "on "); blk 20480 (zs "the ");
    blk 24576 (zs "heap. "); blk 28672 (zs "Let's say this twice {"); blk 32768 (zs "}") ].
Definition at_blk (b : nat) : ptr := Ptr (PBlk b) 0.
Definition w_prog : st := St prog_mem (fun _ => Choice false true 0).
Ltac strings := repeat (apply Forall2_cons; [split; [apply c_stringb_ok; vm_compute; reflexivity|eexists; reflexivity]|]); apply Forall2_nil.
Example C114_ex : strings_at prog_mem (map at_blk [0; 1; 2; 3; 4; 5]%nat) heap_words
  /\ strings_at prog_mem [at_blk 6; at_blk 7] [bs "Let's say this twice {"; bs "}"] /\ mem_wf prog_mem /\ no_fail w_prog
  /\ is_dyn heapA = true /\ c_ptr gcc64 = true /\ c_step gcc64 <= 65536
  /\ match say_twice gcc64 w_prog heapA None (map at_blk [0; 1; 2; 3; 4; 5]%nat) (at_blk 6) (at_blk 7) with
     | Ok (t, bp, w) => t = bs "Let's say this twice {This buffer lives on the heap. This buffer lives on the heap. }" /\ bp = Some null
         /\ existsb b_live (skipn 8 (s_mem w)) = false /\ (8 < length (s_mem w))%nat
     | _ => False
     end.
Proof.
  split; [strings|]. split; [strings|]. split; [wf_check|]. split; [intros ?; reflexivity|]. split; [reflexivity|]. split; [reflexivity|].
  split; [vm_compute; discriminate|]. vm_compute. do 3 (split; [reflexivity|]). do 8 apply le_n_S. apply Nat.lt_0_succ.
Qed.

(** ** C115 the stack buffer example *)
Theorem C115_fixed_capacity : forall cf w c v l dash set, wf_cfg cf -> mem_wf (s_mem w) -> no_fail w -> given (s_mem w) v l ->
  strings_at (s_mem w) [dash] [set] ->
  let t := if Zlen l <=? 200 then l else [] in
  exists w', stack_ex1 cf w c v dash = Ok (upto_nul t, upto_nul (without set t), w') /\
    no_trace (s_mem w) (s_mem w') /\ mem_wf (s_mem w') /\ no_fail w'.
Proof. exact stack_ex1_ok. Qed.
Print Assumptions C115_fixed_capacity.
Theorem C115_runtime_size : forall cf w c v l dash set, wf_cfg cf -> mem_wf (s_mem w) -> no_fail w -> given (s_mem w) v l ->
  strings_at (s_mem w) [dash] [set] ->
  exists w', stack_ex2 cf w c v dash = Ok (upto_nul l, upto_nul (without set l), w') /\
    no_trace (s_mem w) (s_mem w') /\ mem_wf (s_mem w') /\ no_fail w'.
Proof. exact stack_ex2_ok. Qed.
Print Assumptions C115_runtime_size.
Theorem C115_char_array : forall cf w c v l, wf_cfg cf -> mem_wf (s_mem w) -> no_fail w -> given (s_mem w) v l -> (v = INVALID -> c_mem0 cf = true) ->
  exists w', stack_ex3 cf w c v = Ok (upto_nul l, w') /\ no_trace (s_mem w) (s_mem w') /\ mem_wf (s_mem w') /\ no_fail w'.
Proof. exact stack_ex3_ok. Qed.
Print Assumptions C115_char_array.
(** What is printed of a text is the text up to its first NUL. *)
Theorem C115_printed : forall l, ~ In 0 (upto_nul l) /\ exists r, l ++ [0] = upto_nul l ++ [0] ++ r.
Proof. exact upto_nul_spec. Qed.
Print Assumptions C115_printed.
Definition card_mem : mem := [ blk 4096 (bs "1234-5678-3456-7890"); blk 8192 (zs "-"); blk 12288 (repeat 45 201) ].
Definition w_card : st := St card_mem (fun _ => Choice false true 0).
Definition where_ : choice := Choice false false 20000.
Definition seen2 (r : outcome (list Z * list Z * st)) := match r with Ok (a, b, _) => Some (a, b) | _ => None end.
Example C115_ex : given card_mem (vw 0 0 19) (bs "1234-5678-3456-7890") /\ strings_at card_mem [at_blk 1] [bs "-"] /\ given card_mem INVALID []
  /\ given card_mem (vw 2 0 201) (repeat 45 201) /\ mem_wf card_mem /\ no_fail w_card
  /\ seen2 (stack_ex1 gcc64 w_card where_ (vw 0 0 19) (at_blk 1)) = Some (bs "1234-5678-3456-7890", bs "1234567834567890")
  /\ seen2 (stack_ex2 gcc64 w_card where_ (vw 0 0 19) (at_blk 1)) = Some (bs "1234-5678-3456-7890", bs "1234567834567890")
  /\ seen2 (stack_ex1 gcc64 w_card where_ (vw 2 0 201) (at_blk 1)) = Some ([], [])
  /\ seen2 (stack_ex2 gcc64 w_card where_ (vw 2 0 201) (at_blk 1)) = Some (repeat 45 201, [])
  /\ match stack_ex3 gcc64 w_card where_ (vw 0 0 9) with Ok (t, _) => t = bs "1234-5678" | _ => False end.
Proof.
  split; [right; split; [view_check|eexists; reflexivity]|]. split; [strings|]. split; [left; auto|].
  split; [right; split; [view_check|eexists; reflexivity]|]. split; [wf_check|]. split; [intros ?; reflexivity|].
  do 4 (split; [vm_compute; reflexivity|]). vm_compute. reflexivity.
Qed.

(** ** C116 the static buffer example *)
Theorem C116_remembers : forall cf b cap a vs ls w t, wf_cfg cf -> mem_wf (s_mem w) -> no_fail w -> a_fn a = None ->
  buf_at cf (s_mem w) (Ptr (PBlk b) 0) (Buffer t cap a) -> shown_args cf (s_mem w) b vs ls ->
  exists w', static_calls cf w (Ptr (PBlk b) 0) vs = Ok (previous cap t ls, w') /\
    buf_at cf (s_mem w') (Ptr (PBlk b) 0) (Buffer (last (map (stored cap) ls) t) cap a) /\
    touches cf (s_mem w) (s_mem w') (Ptr (PBlk b) 0) (Ptr (PBlk b) 0) (Buffer t cap a) /\ mem_wf (s_mem w') /\ no_fail w'.
Proof. exact static_calls_ok. Qed.
Print Assumptions C116_remembers.
Theorem C116_program : forall cf b g cap cap2 vs ls last ll w, wf_cfg cf -> mem_wf (s_mem w) -> no_fail w -> 0 <= cap <= INT_MAX -> 0 <= cap2 <= INT_MAX ->
  b <> g -> new_fixed cf (s_mem w) b cap -> new_fixed cf (s_mem w) g cap2 ->
  shown_args cf (s_mem w) b vs ls -> given (s_mem w) last ll -> p_obj (v_data last) <> PBlk b -> p_obj (v_data last) <> PBlk g ->
  exists w', static_main cf w (Ptr (PBlk b) 0) (Ptr (PBlk g) 0) vs last = Ok (previous cap [] ls, upto_nul (stored cap2 ll), w') /\
    mem_wf (s_mem w') /\ no_fail w' /\ length (s_mem w') = length (s_mem w) /\
    forall i, i <> b -> i <> g -> nth_error (s_mem w') i = nth_error (s_mem w) i.
Proof. exact static_main_ok. Qed.
Print Assumptions C116_program.
Definition static_mem : mem :=
  [ static_buf_block gcc64 4096 8; static_buf_block gcc64 8192 8; blk 12288 (bs "1234567800 0591") ].
Definition w_static : st := St static_mem (fun _ => Choice false true 0).
(** The third text is too long for the buffer. *)
Definition static_args : list view := [vw 2 0 4; vw 2 4 4; vw 2 0 10; INVALID; vw 2 11 4].
Definition static_texts : list (list Z) := [bs "1234"; bs "5678"; bs "1234567800"; []; bs "0591"].
Lemma static_new : forall b base, nth_error static_mem b = Some (static_buf_block gcc64 base 8) -> base mod 8 = 0 -> new_fixed gcc64 static_mem b 8.
Proof.
  intros b base H Hb. exists (static_buf_block gcc64 base 8). split; auto. split; auto. split; auto. split; [vm_compute; discriminate|].
  unfold static_buf_block. cbn [b_get b_size]. split; intros i Hi.
  - now rewrite (proj2 (Z.ltb_lt i _)) by (apply Hi).
  - now rewrite (proj2 (Z.ltb_ge i _)) by (apply Hi).
Qed.
Example C116_ex : new_fixed gcc64 static_mem 0 8 /\ new_fixed gcc64 static_mem 1 8 /\ mem_wf static_mem /\ no_fail w_static
  /\ shown_args gcc64 static_mem 0 static_args static_texts
  /\ previous 8 [] static_texts = [([], bs "1234"); (bs "1234", bs "5678"); (bs "5678", bs "1234567800"); ([], []); ([], bs "0591")]
  /\ match static_main gcc64 w_static (at_blk 0) (at_blk 1) static_args (vw 2 4 6) with
     | Ok (l, t, _) => l = previous 8 [] static_texts /\ t = bs "567800"
     | _ => False
     end.
Proof.
  split; [apply (static_new 0 4096); reflexivity|]. split; [apply (static_new 1 8192); reflexivity|]. split; [wf_check|]. split; [intros ?; reflexivity|].
  split.
  { unfold static_args, static_texts.
    do 3 (apply Forall2_cons; [split; [right; split; [view_check|eexists; reflexivity]|split; [discriminate|discriminate]]|]).
    apply Forall2_cons; [split; [left; auto|split; [reflexivity|discriminate]]|].
    apply Forall2_cons; [split; [right; split; [view_check|eexists; reflexivity]|split; [discriminate|discriminate]]|]. apply Forall2_nil. }
  split; [reflexivity|]. vm_compute. auto.
Qed.

(** ** C117 the number test program *)
Theorem C117_options : forall cf m argv ls, mem_wf m -> Forall2 (c_string m) argv ls ->
  exists o, arguments cf m argv 0 = Ok o /\ (forall k w, In (k, w) option_words -> (Z.testbit o k = true <-> asked ls w)) /\
    forall k, Z.testbit o k = true -> 0 <= k <= 5.
Proof. exact options_ok. Qed.
Print Assumptions C117_options.
Theorem C117_integer_lines : forall cf m txt l opt, mem_wf m -> c_string m txt l -> ctype_safe cf l -> no_b0 l ->
  exists b c, l = b ++ c /\ Forall (fun x => x = 13 \/ x = 10) c /\ (forall t x, b = t ++ [x] -> x <> 13 /\ x <> 10) /\
    number_line cf m txt opt = Ok (b, map (line_of cf opt b) line_types).
Proof. exact number_line_ok. Qed.
Print Assumptions C117_integer_lines.
Theorem C117_float_lines : forall cf F D L m v l opt, mem_wf m -> has_view m v l -> ctype_safe cf l ->
  strip_word w_infinty (snd (float_body opt l)) = None -> c_mem0 cf = true ->
  exists rf rd rl a b c, strnum_consume_float cf F m true (Some v) opt = Ok rf /\ strnum_consume_double cf D m true (Some v) opt = Ok rd /\
    strnum_consume_double cf L m true (Some v) opt = Ok rl /\ float_lines cf F D L m v opt = Ok (a, b, c) /\
    float_line (a_zero F) rf opt l a /\ float_line (a_zero D) rd opt l b /\ float_line (a_zero L) rl opt l c.
Proof. exact float_lines_ok. Qed.
Print Assumptions C117_float_lines.
Definition cmd_mem : mem := [ blk 4096 (zs "NoSign"); blk 8192 (zs "base-HEX"); blk 12288 (zs "other"); blk 16384 (bs " 300kg" ++ [13; 10; 0]); blk 20480 (bs "2.5e3 V") ].
Example C117_ex : Forall2 (c_string cmd_mem) (map at_blk [0; 1; 2]%nat) [bs "NoSign"; bs "base-HEX"; bs "other"] /\ mem_wf cmd_mem
  /\ arguments gcc64 cmd_mem (map at_blk [0; 1; 2]%nat) 0 = Ok 10 /\ c_string cmd_mem (at_blk 3) (bs " 300kg" ++ [13; 10])
  /\ ctype_safe gcc64 (bs " 300kg" ++ [13; 10]) /\ no_b0 (bs " 300kg" ++ [13; 10])
  /\ number_line gcc64 cmd_mem (at_blk 3) 0 =
     Ok (bs " 300kg", [ (ERANGE, 0, bs " 300kg"); (NoErr, 300, bs "kg"); (NoErr, 300, bs "kg"); (NoErr, 300, bs "kg"); (NoErr, 300, bs "kg");
                        (ERANGE, 0, bs " 300kg"); (NoErr, 300, bs "kg"); (NoErr, 300, bs "kg"); (NoErr, 300, bs "kg"); (NoErr, 300, bs "kg") ])
  /\ has_view cmd_mem (vw 4 0 7) (bs "2.5e3 V") /\ ctype_safe gcc64 (bs "2.5e3 V") /\ c_mem0 gcc64 = true
  /\ strip_word w_infinty (snd (float_body 0 (bs "2.5e3 V"))) = None
  /\ match read_float 0 (bs "2.5e3 V") with FGood t => ft_rest t = bs " V" | _ => False end
  /\ match float_lines gcc64 exact exact exact cmd_mem (vw 4 0 7) 0 with
     | Ok ((e, Fin q, r), _, _) => e = NoErr /\ QArith_base.Qeq q (QArith_base.inject_Z 2500) /\ r = bs " V"
     | _ => False
     end.
Proof.
  split; [repeat (apply Forall2_cons; [apply c_stringb_ok; vm_compute; reflexivity|]); apply Forall2_nil|].
  split; [wf_check|]. split; [reflexivity|]. split; [apply c_stringb_ok; vm_compute; reflexivity|]. split; [left; reflexivity|].
  split; [split; intros H; vm_compute in H; intuition discriminate|]. split; [vm_compute; reflexivity|]. split; [view_check|]. split; [left; reflexivity|]. split; [reflexivity|].
  split; [reflexivity|]. split; [reflexivity|]. vm_compute. repeat split; reflexivity.
Qed.
