(** The upstream test suite (/repo/test/test.c) run on the model.

    These are tests, not proofs: they are evidence that the model behaves like the code its
    authors tested, and no property is claimed on their account.  Every test below performs the calls
    of the C test of the same name, in the same order and on the same texts, and evaluates to
    [true] by computation.  Where test.c compares only a prefix with memcmp(), the whole text is
    compared here.  Every string literal of a test is an object of its own, as in C. *)
From Coq Require Import Ascii String SpecFloat.
From Verif Require Import Base Mem Libc StrviewModel Alloc StrbufModel StrnumModel Spec FloatSpec ExampleLib.
Local Open Scope string_scope.
Local Open Scope list_scope.
Local Open Scope Z_scope.

(** A test: runs on a state, [None] for a failed assertion or an undefined behaviour. *)
Definition test (A : Type) : Type := st -> option (A * st).
Definition done {A} (a : A) : test A := fun w => Some (a, w).
Definition after {A B} (x : test A) (f : A -> test B) : test B :=
  fun w => match x w with Some (a, w') => f a w' | None => None end.
Notation "x <- e ; k" := (after e (fun x => k)) (at level 20, e at level 100, k at level 200, only parsing).
Notation "' x <- e ; k" := (after e (fun x => k)) (at level 20, x pattern, e at level 100, k at level 200, only parsing).
Notation "'do' e ; k" := (after e (fun _ => k)) (at level 20, e at level 100, k at level 200, only parsing).
(** ASSERT() *)
Definition ok (b : bool) : test unit := fun w => if b then Some (tt, w) else None.
(** A call that only reads memory; a call on the program state. *)
Definition ask {A} (f : mem -> outcome A) : test A :=
  fun w => match f (s_mem w) with Ok a => Some (a, w) | _ => None end.
Definition act {A} (f : st -> outcome (A * st)) : test A :=
  fun w => match f w with Ok r => Some r | _ => None end.
(** A call of the buffer interface on the variable [p]: the view returned and the variable afterwards. *)
Definition buf_call (f : st -> option ptr -> outcome (view * option ptr * st)) (p : ptr) : test (view * ptr) :=
  fun w => match f w (Some p) with Ok (v, Some q, w') => Some ((v, q), w') | _ => None end.

(** The configuration of the tests; an allocator that moves every block it resizes. *)
Definition cf : cfg := gcc64.
(** test.c:39-40 static_buf *)
Definition static_buf : ptr := Ptr (PBlk 0) 0.
Definition start : st :=
  St [Block 4096 200 true Static (fun _ => CUndef)] (fun _ => Choice false true 0).
Definition pass {A} (t : test A) : bool := match t start with Some _ => true | None => false end.

(** A string literal: a new object with its NUL. *)
Definition P (s : string) : test ptr := fun w =>
  let m := s_mem w in
  Some (Ptr (PBlk (length m)) 0, with_mem w (m ++ [blk (fresh_base cf m) (bs s ++ [0])])).
(** cstr("...") *)
Definition S (s : string) : test view := p <- P s; ask (fun m => cstr m p).
Definition INT (c : string) : Z := nth 0 (bs c) 0.

(** The text of a valid view is [s]. *)
Definition isl (v : view) (l : list Z) : test unit :=
  x <- ask (fun m => if strview_is_valid v then load_bytes m (v_data v) (Z.to_nat (v_size v)) else UB UB_null); ok (list_eqb x l).
Definition is (v : view) (s : string) : test unit := isl v (bs s).
Definition invalid (v : view) : test unit := ok (negb (strview_is_valid v)).
(** A valid view of no characters. *)
Definition empty (v : view) : test unit := ok (strview_is_valid v && (v_size v =? 0)).
(** buf->size, buf->capacity, the text in the buffer with its NUL. *)
Definition header (p : ptr) : test hdr := ask (fun m => load_hdr cf m p).
Definition holds (p : ptr) (s : string) : test unit :=
  h <- header p; do ok (h_size h =? Zlen (bs s));
  x <- ask (fun m => load_bytes m (cstr_of cf p) (Z.to_nat (h_size h + 1)));
  ok (list_eqb x (bs s ++ [0])).
Definition cap_is (p : ptr) (n : Z) : test unit := h <- header p; ok (h_cap h =? n).

(** strbuf_create(n, NULL), strbuf_create(cstr(...), NULL), strbuf_create_fixed(), strbuf_destroy(&buf) *)
Definition stdlib : allocator := Alloc 0 (Some 0%nat).
Definition create (n : Z) : test ptr := act (fun w => strbuf_create_empty cf w stdlib n None).
Definition create_with (a : allocator) (n : Z) : test ptr := act (fun w => strbuf_create_empty cf w stdlib n (Some a)).
Definition create_init (v : view) : test ptr := act (fun w => strbuf_create_init cf w stdlib v None).
Definition create_fixed (p : ptr) (n : Z) : test ptr := fun w =>
  match strbuf_create_fixed cf (s_mem w) p n with Ok (q, m) => Some (q, with_mem w m) | _ => None end.
Definition destroy (p : ptr) : test unit := fun w =>
  match strbuf_destroy cf w (Some p) with Ok (Some q, w') => if is_null q then Some (tt, w') else None | _ => None end.
Definition view_of (p : ptr) : test view := fun w =>
  match strbuf_view cf w (Some p) with Ok v => Some (v, w) | _ => None end.

Definition assign p v := buf_call (fun w b => strbuf_assign cf w b v) p.
Definition append p v := buf_call (fun w b => strbuf_append_strview cf w b v) p.
Definition append_s p s := buf_call (fun w b => strbuf_append_cstr cf w b s) p.
Definition prepend p v := buf_call (fun w b => strbuf_prepend_strview cf w b v) p.
Definition prepend_s p s := buf_call (fun w b => strbuf_prepend_cstr cf w b s) p.
Definition insert_at p i v := buf_call (fun w b => strbuf_insert_at_index_strview cf w b i v) p.
Definition insert_at_s p i s := buf_call (fun w b => strbuf_insert_at_index_cstr cf w b i s) p.
Definition before p d v := buf_call (fun w b => strbuf_insert_before_strview cf w b d v) p.
Definition before_s p d s := buf_call (fun w b => strbuf_insert_before_cstr cf w b d s) p.
Definition after_ p d v := buf_call (fun w b => strbuf_insert_after_strview cf w b d v) p.
Definition after_s p d s := buf_call (fun w b => strbuf_insert_after_cstr cf w b d s) p.
Definition shrink p := buf_call (fun w b => strbuf_shrink cf w b) p.
Definition cat p l := buf_call (fun w b => strbuf_cat cf w b l) p.
Definition append_char p c := buf_call (fun w b => strbuf_append_char cf w b c) p.



(** test.c:182-198 *)
Example test_strbuf_create_using_malloc : pass (
  b <- create 16; do ok (negb (is_null b)); do holds b ""; do cap_is b 16; destroy b) = true.
Proof. vm_compute. reflexivity. Qed.
(** test.c:200-215 *)
Example test_strbuf_create_init : pass (
  v <- S "The quick brown fox jumped over the lazy dog"; b <- create_init v;
  do holds b "The quick brown fox jumped over the lazy dog"; destroy b) = true.
Proof. vm_compute. reflexivity. Qed.
(** test.c:217-234 *)
Example test_strbuf_create_using_allocator : pass (
  b <- create_with (Alloc 0 (Some 1%nat)) 16; do ok (negb (is_null b)); do holds b ""; do cap_is b 16; destroy b) = true.
Proof. vm_compute. reflexivity. Qed.
(** test.c:236-253 *)
Example test_strbuf_create_static : pass (
  b <- create_fixed (shift static_buf 3) 200; do ok (is_null b);
  b <- create_fixed static_buf (hdr_size cf); do ok (is_null b);
  b <- create_fixed static_buf 200; do ok (negb (is_null b)); do holds b "";
  do cap_is b (200 - hdr_size cf - 1); destroy b) = true.
Proof. vm_compute. reflexivity. Qed.

Definition blah : string := "BLAH BLAH BLAH BLAH BLAH BLAH BLAH BLAH BLAH BLAH BLAH BLAH BLAH BLAH BLAH BLAH BLAH BLAH BLAH BLAH BLAH BLAH BLAH BLAH BLAH  ".
(** test.c:255-316 *)
Example test_strbuf_strcat : pass (
  b <- create 16;
  x <- S "AAAAAAAAAA"; y <- S "BBBBBBBBBB"; z <- S "CCCCCCCCCC"; '(_, b) <- cat b [x; y; z];
  h <- header b; do ok ((30 <=? h_cap h) && (h_size h =? 30));
  do holds b "AAAAAAAAAABBBBBBBBBBCCCCCCCCCC";
  v <- view_of b; x <- S "-AFTER"; '(_, b) <- cat b [v; x];
  do holds b "AAAAAAAAAABBBBBBBBBBCCCCCCCCCC-AFTER";
  x <- S "BEFORE-"; v <- view_of b; '(_, b) <- cat b [x; v];
  do holds b "BEFORE-AAAAAAAAAABBBBBBBBBBCCCCCCCCCC-AFTER";
  '(v, b) <- cat b [INVALID]; do empty v; do destroy b;
  b <- create_fixed static_buf 200; do cap_is b (200 - hdr_size cf - 1);
  x <- S "DDDDDDDDDD"; y <- S "EEEEEEEEEE"; z <- S "FFFFFFFFFF"; '(_, b) <- cat b [x; y; z];
  do cap_is b (200 - hdr_size cf - 1); do holds b "DDDDDDDDDDEEEEEEEEEEFFFFFFFFFF";
  v <- view_of b; v <- ask (fun m => strview_sub cf m v 5 10);
  x <- S "never "; y <- S " seen"; '(_, b) <- cat b [x; v; y]; do holds b "";
  x <- S ""; '(_, b) <- assign b x;
  x <- S blah; '(_, b) <- append b x; do holds b blah; '(_, b) <- append b x; do holds b ""; destroy b) = true.
Proof. vm_compute. reflexivity. Qed.

Definition sub v a b := ask (fun m => strview_sub cf m v a b).
(** test.c:318-341 *)
Example test_strview_sub : pass (
  s <- S "BEFORE-AAAAAAAAAABBBBBBBBBBCCCCCCCCCC-AFTER";
  v <- sub s 17 27; do is v "BBBBBBBBBB";
  v <- sub s 0 6; do is v "BEFORE";
  v <- sub s (-5) INT_MAX; is v "AFTER") = true.
Proof. vm_compute. reflexivity. Qed.
(** str1.data[0] == c *)
Definition char_is (v : view) (c : string) : test unit := x <- ask (fun m => load_byte m (v_data v)); ok (x =? INT c).
(** test.c:343-391 *)
Example test_strview_sub_edge_cases : pass (
  x <- S "X"; e <- S "";
  v <- sub x 0 0; do empty v; do char_is v "X";
  v <- sub x (-1) (-1); do empty v; do char_is v "X";
  v <- sub x 0 (-1); do empty v; do char_is v "X";
  v <- sub x (-1) 0; do empty v; do char_is v "X";
  v <- sub x 1 0; do invalid v; do ok (v_size v =? 0);
  v <- sub x 1 (-1); do invalid v; do ok (v_size v =? 0);
  v <- sub e 0 0; do empty v; v <- sub e (-1) (-1); do empty v;
  v <- sub e (-1) 0; do empty v; v <- sub e 0 (-1); empty v) = true.
Proof. vm_compute. reflexivity. Qed.

(** strview_split_...(&src, ...): the part split off and the source afterwards. *)
Definition splits (f : mem -> option view -> outcome (view * option view)) (s : view) : test (view * view) :=
  fun w => match f (s_mem w) (Some s) with Ok (v, Some s') => Some ((v, s'), w) | _ => None end.
Definition first_delim s d q := splits (fun m x => strview_split_first_delim cf m x d q) s.
Definition last_delim s d q := splits (fun m x => strview_split_last_delim cf m x d q) s.
Definition quoted : string := "ab"".""c.d""a.""ef.gh"".a""i".
(** test.c:393-419 *)
Example test_strview_split_first_delim : pass (
  d <- P "/"; s <- S "123/456/789";
  '(v, s) <- first_delim s d false; do is v "123";
  '(v, s) <- first_delim s d false; do is v "456";
  '(v, s) <- first_delim s d false; do is v "789"; do invalid s;
  d <- P "."; s <- S quoted;
  '(v, s) <- first_delim s d true; do is v "ab"".""c";
  '(v, s) <- first_delim s d true; do is v "d""a.""ef";
  '(v, s) <- first_delim s d true; do is v "gh"".a""i"; invalid s) = true.
Proof. vm_compute. reflexivity. Qed.
Definition split_all n s d := ask (fun m => strview_split_all cf m n s d false).
(** test.c:421-453 *)
Example test_strview_split_all : pass (
  d <- P "/"; s <- S "123/456/789";
  l <- split_all 2 s d;
  do ok (Zlen l =? 2); do is (nth 0 l INVALID) "123"; do is (nth 1 l INVALID) "456";
  l <- split_all 4 s d;
  do ok (Zlen l =? 3); do is (nth 0 l INVALID) "123"; do is (nth 1 l INVALID) "456"; do is (nth 2 l INVALID) "789";
  l <- split_all 4 INVALID d; do ok (Zlen l =? 0); invalid (nth 0 l INVALID)) = true.
Proof. vm_compute. reflexivity. Qed.
(** test.c:455-493 *)
Example test_strview_split_first_delim_edge_cases : pass (
  d <- P "/"; s <- S "/456/789/";
  '(v, s) <- first_delim s d false; do empty v; do is s "456/789/";
  '(v, s) <- first_delim s d false; do is v "456"; do is s "789/";
  '(v, s) <- first_delim s d false; do is v "789"; do empty s;
  '(v, s) <- first_delim s d false; do empty v; do invalid s; do ok (v_size s =? 0);
  s <- S "no-delims"; '(v, s) <- first_delim s d false; do is v "no-delims"; do invalid s; ok (v_size s =? 0)) = true.
Proof. vm_compute. reflexivity. Qed.
(** test.c:495-525 *)
Example test_strview_split_last_delim : pass (
  d <- P "/"; s <- S "123/456/789";
  '(v, s) <- last_delim s d false; do is v "789"; do is s "123/456";
  '(v, s) <- last_delim s d false; do is v "456"; do is s "123";
  d <- P "."; s <- S quoted;
  '(v, s) <- last_delim s d true; do is v "gh"".a""i";
  '(v, s) <- last_delim s d true; do is v "d""a.""ef";
  '(v, s) <- last_delim s d true; do is v "ab"".""c"; invalid s) = true.
Proof. vm_compute. reflexivity. Qed.
(** test.c:527-558 *)
Example test_strview_split_last_delim_edge_cases : pass (
  d <- P "/"; s <- S "/456/789/";
  '(v, s) <- last_delim s d false; do empty v; do is s "/456/789";
  '(v, s) <- last_delim s d false; do is v "789"; do is s "/456";
  '(v, s) <- last_delim s d false; do is v "456"; do empty s;
  '(v, s) <- last_delim s d false; do empty v; do invalid s; ok (v_size s =? 0)) = true.
Proof. vm_compute. reflexivity. Qed.

(** Position of a search result. *)
Definition found (v hay : view) (n : Z) : test unit :=
  d <- ask (fun m => pdiff cf m (v_data v) (v_data hay)); ok (strview_is_valid v && (d =? n)).
Definition find_first_at h n i := v <- ask (fun m => strview_find_first cf m h n); found v h i.
Definition find_first_s_at h n i := v <- ask (fun m => strview_find_first_cstr cf m h n); found v h i.
Definition find_first_nc_at h n i := v <- ask (fun m => strview_find_first_nocase cf m h n); found v h i.
Definition find_first_nc_s_at h n i := v <- ask (fun m => strview_find_first_nocase_cstr cf m h n); found v h i.
Definition find_last_at h n i := v <- ask (fun m => strview_find_last cf m h n); found v h i.
Definition find_last_s_at h n i := v <- ask (fun m => strview_find_last_cstr cf m h n); found v h i.
Definition find_last_nc_at h n i := v <- ask (fun m => strview_find_last_nocase cf m h n); found v h i.
Definition find_last_nc_s_at h n i := v <- ask (fun m => strview_find_last_nocase_cstr cf m h n); found v h i.
(** test.c:560-587 *)
Example test_strview_find_first : pass (
  h <- S "needle"; n <- S "needle"; do find_first_at h n 0; p <- P "needle"; do find_first_s_at h p 0;
  h <- S "needleneedle"; do find_first_at h n 0;
  h <- S "needlneedle"; find_first_at h n 5) = true.
Proof. vm_compute. reflexivity. Qed.
(** test.c:589-616 *)
Example test_strview_find_first_nocase : pass (
  h <- S "nEedle"; n <- S "neeDle"; do find_first_nc_at h n 0;
  h <- S "Needle"; p <- P "needlE"; do find_first_nc_s_at h p 0;
  h <- S "neEDleneEdlE"; n <- S "Needle"; do find_first_nc_at h n 0;
  h <- S "needLneedLe"; n <- S "needle"; find_first_nc_at h n 5) = true.
Proof. vm_compute. reflexivity. Qed.
(** test.c:618-644 *)
Example test_strview_find_first_edge_cases : pass (
  h <- S "haystack"; e <- S ""; do find_first_at h e 0;
  v <- ask (fun m => strview_find_first cf m h INVALID); do invalid v;
  v <- ask (fun m => strview_find_first cf m INVALID e); do invalid v;
  h <- S ""; find_first_at h e 0) = true.
Proof. vm_compute. reflexivity. Qed.
(** test.c:646-674 *)
Example test_strview_find_last : pass (
  h <- S "needle"; n <- S "needle"; do find_last_at h n 0; p <- P "needle"; do find_last_s_at h p 0;
  h <- S "needleneedle"; do find_last_at h n 6;
  h <- S "needlneedle"; find_last_at h n 5) = true.
Proof. vm_compute. reflexivity. Qed.
(** test.c:676-704 *)
Example test_strview_find_last_nocase : pass (
  h <- S "needle"; n <- S "needlE"; do find_last_nc_at h n 0;
  h <- S "neeDle"; p <- P "nEedle"; do find_last_nc_s_at h p 0;
  h <- S "needleNeedle"; n <- S "needle"; do find_last_nc_at h n 6;
  h <- S "needlneedle"; n <- S "needLe"; find_last_nc_at h n 5) = true.
Proof. vm_compute. reflexivity. Qed.
(** test.c:706-732 *)
Example test_strview_find_last_edge_cases : pass (
  h <- S "haystack"; e <- S ""; do find_last_at h e 8;
  v <- ask (fun m => strview_find_last cf m h INVALID); do invalid v;
  v <- ask (fun m => strview_find_first cf m INVALID e); do invalid v;
  h <- S ""; find_first_at h e 0) = true.
Proof. vm_compute. reflexivity. Qed.
(** test.c:734-742 *)
Example test_strview_is_valid : pass (do invalid INVALID; v <- S "valid"; ok (strview_is_valid v)) = true.
Proof. vm_compute. reflexivity. Qed.
(** test.c:744-760 *)
Fixpoint append_all (p : ptr) (l : list Z) : test ptr :=
  match l with [] => done p | c :: r => '(_, q) <- append_char p c; append_all q r end.
Definition typewriter : string := "THE QUICK BROWN FOX JUMPES OVER THE LAZY DOG. CONGRATULATIONS, YOUR TYPEWRITER WORKS!".
Example test_strview_append_char : pass (
  b <- create 0; b <- append_all b (bs typewriter); v <- view_of b; do is v typewriter; destroy b) = true.
Proof. vm_compute. reflexivity. Qed.
(** test.c:762-787 *)
Example test_strbuf_shrink : pass (
  b <- create 200; x <- S "hello-test"; '(_, b) <- assign b x; '(_, b) <- shrink b;
  do holds b "hello-test"; do cap_is b 10; do destroy b;
  b <- create_fixed static_buf 200; do cap_is b (200 - hdr_size cf - 1);
  '(_, b) <- assign b x; '(_, b) <- shrink b; do holds b "hello-test"; do cap_is b (200 - hdr_size cf - 1); destroy b) = true.
Proof. vm_compute. reflexivity. Qed.

(** Yes/no questions about two views; about a view and a C string. *)
Definition yes (f : mem -> view -> view -> outcome bool) (a b : test view) (r : bool) : test unit :=
  x <- a; y <- b; v <- ask (fun m => f m x y); ok (Bool.eqb v r).
Definition yes_s (f : mem -> view -> ptr -> outcome bool) (a : test view) (b : test ptr) (r : bool) : test unit :=
  x <- a; y <- b; v <- ask (fun m => f m x y); ok (Bool.eqb v r).
Definition I : test view := done INVALID.
Definition N : test ptr := done null.
(** test.c:789-802 *)
Example test_strview_is_match : pass (
  let q := yes (strview_is_match cf) in let qs := yes_s (strview_is_match_cstr cf) in
  do q (S "Hello") (S "Hello") true; do q I I true; do qs (S "Hello") (P "Hello") true; do qs I N true;
  do q (S "Hello") (S "HellO") false; do q (S "Hello") (S "Hell") false; do q (S "Hell") (S "Hello") false;
  do q (S "Hello") I false; q I (S "Hello") false) = true.
Proof. vm_compute. reflexivity. Qed.
(** test.c:804-821 *)
Example test_strview_is_match_nocase : pass (
  let q := yes (strview_is_match_nocase cf) in let qs := yes_s (strview_is_match_nocase_cstr cf) in
  do q (S "Hello") (S "Hello") true; do q I I true; do q (S "Hello") (S "HellO") true; do q (S "Hello") (S "hello") true;
  do qs (S "Hello") (P "Hello") true; do qs I N true; do qs (S "Hello") (P "HellO") true; do qs (S "Hello") (P "hello") true;
  do q (S "Hello") (S "Hell") false; do q (S "Hell") (S "Hello") false; do q (S "Hello") I false; q I (S "Hello") false) = true.
Proof. vm_compute. reflexivity. Qed.
(** test.c:823-838 *)
Example test_strview_starts_with : pass (
  let q := yes (strview_starts_with cf) in let qs := yes_s (strview_starts_with_cstr cf) in
  do q (S "Hello...") (S "Hello") true; do q I I true; do q (S "Hello..") (S "Hello...") false;
  do q (S "Hello") I false; do q I (S "Hello") false;
  do qs (S "Hello...") (P "Hello") true; do qs I N true; do qs (S "Hello..") (P "Hello...") false;
  do qs (S "Hello") N false; qs I (P "Hello") false) = true.
Proof. vm_compute. reflexivity. Qed.
(** test.c:840-855 *)
Example test_strview_starts_with_nocase : pass (
  let q := yes (strview_starts_with_nocase cf) in let qs := yes_s (strview_starts_with_nocase_cstr cf) in
  do q (S "hELlo...") (S "Hello") true; do q I I true; do q (S "Hello..") (S "Hello...") false;
  do q (S "Hello") I false; do q I (S "Hello") false;
  do qs (S "hELlo...") (P "Hello") true; do qs I N true; do qs (S "Hello..") (P "Hello...") false;
  do qs (S "Hello") N false; qs I (P "Hello") false) = true.
Proof. vm_compute. reflexivity. Qed.

Definition trims (f : mem -> view -> view -> outcome view) (a b : test view) (s : string) : test unit :=
  x <- a; y <- b; v <- ask (fun m => f m x y); is v s.
Definition trims_s (f : mem -> view -> ptr -> outcome view) (a : test view) (b : test ptr) (s : string) : test unit :=
  x <- a; y <- b; v <- ask (fun m => f m x y); is v s.
(** test.c:857-891 *)
Example test_strview_trim_start : pass (
  let t := trims (strview_trim_start cf) (S "/.;/hello;./;.") in let ts := trims_s (strview_trim_start_cstr cf) (S "/.;/hello;./;.") in
  do t (S ";./") "hello;./;."; do t (S "/;") ".;/hello;./;."; do t (S "/") ".;/hello;./;.";
  do t (S "") "/.;/hello;./;."; do t I "/.;/hello;./;.";
  do ts (P ";./") "hello;./;."; do ts (P "/;") ".;/hello;./;."; do ts (P "/") ".;/hello;./;."; ts (P "") "/.;/hello;./;.") = true.
Proof. vm_compute. reflexivity. Qed.
(** test.c:893-927 *)
Example test_strview_trim_end : pass (
  let t := trims (strview_trim_end cf) (S "/.;/hello;./;.") in let ts := trims_s (strview_trim_end_cstr cf) (S "/.;/hello;./;.") in
  do t (S ";./") "/.;/hello"; do t (S ";.") "/.;/hello;./"; do t (S ";") "/.;/hello;./;.";
  do t (S "") "/.;/hello;./;."; do t I "/.;/hello;./;.";
  do ts (P ";./") "/.;/hello"; do ts (P ";.") "/.;/hello;./"; do ts (P ";") "/.;/hello;./;."; ts (P "") "/.;/hello;./;.") = true.
Proof. vm_compute. reflexivity. Qed.
(** test.c:929-941 *)
Example test_strview_trim : pass (
  do trims (strview_trim cf) (S "123hello321") (S "132") "hello"; trims_s (strview_trim_cstr cf) (S "123hello321") (P "132") "hello") = true.
Proof. vm_compute. reflexivity. Qed.
(** test.c:943-963 *)
Definition to_cstr (n : Z) (s : string) : test unit :=
  v <- S s; fun w => match strview_to_cstr cf (s_mem w) static_buf n v with Ok (_, m) => Some (tt, with_mem w m) | _ => None end.
Definition static_is (n : nat) (l : list Z) : test unit := x <- ask (fun m => load_bytes m static_buf n); ok (list_eqb x l).
Example test_strview_to_cstr : pass (
  do (fun w => match store_byte (s_mem w) static_buf 127 with Ok m => Some (tt, with_mem w m) | _ => None end);
  do to_cstr 0 "string"; do static_is 1 [127]; do to_cstr 1 "string"; do static_is 1 [0];
  do to_cstr 4 "string"; do static_is 4 (bs "str" ++ [0]); do to_cstr 4 "str"; do static_is 4 (bs "str" ++ [0]);
  do to_cstr 200 "string"; static_is 7 (bs "string" ++ [0])) = true.
Proof. vm_compute. reflexivity. Qed.
(** test.c:965-977 *)
Definition order (a b : test view) (f : Z -> bool) : test unit :=
  x <- a; y <- b; r <- ask (fun m => strview_compare cf m x y); ok (f r).
Example test_strview_compare : pass (
  do order (S "abd") (S "abc") (fun r => 0 <? r); do order (S "aba") (S "abd") (fun r => r <? 0);
  do order (S "abc") (S "abc") (fun r => r =? 0); do order (S "abca") (S "abc") (fun r => 0 <? r);
  do order (S "abc") (S "abca") (fun r => r <? 0); order (S "") I (fun r => r =? 0)) = true.
Proof. vm_compute. reflexivity. Qed.
(** test.c:979-1045 *)
Definition at_index (i : Z) (left_off split : string) : test unit :=
  s <- S "123"; '(v, s) <- splits (fun m x => strview_split_index cf m x i) s; do is s left_off; is v split.
Example test_strview_split_index : pass (
  do at_index 1 "23" "1"; do at_index (-1) "12" "3"; do at_index 0 "123" ""; do at_index (-3) "" "123";
  do at_index 3 "" "123"; do at_index 4 "" "123"; at_index (-4) "" "123") = true.
Proof. vm_compute. reflexivity. Qed.

(** printf() itself is not modelled here: its output is given (strbuf.c only passes it on). *)
Definition printf p s := buf_call (fun w b => strbuf_vprintf cf w b (FmtText (bs s))) p.
Definition append_printf p s := buf_call (fun w b => strbuf_append_vprintf cf w b (FmtText (bs s))) p.
Definition prnf p s := buf_call (fun w b => strbuf_vprnf cf w b (bs s)) p.
Definition append_prnf p s := buf_call (fun w b => strbuf_append_vprnf cf w b (bs s)) p.
Definition numbers : string := " have some numbers... 6246456 3466765 435234 4598756 94572 69 42597".
(** test.c:1047-1061 *)
Example test_strbuf_printf : pass (
  b <- create 0; '(v, b) <- printf b ("Hello from printf!" ++ numbers)%string;
  do is v ("Hello from printf!" ++ numbers)%string; do holds b ("Hello from printf!" ++ numbers)%string; destroy b) = true.
Proof. vm_compute. reflexivity. Qed.
(** test.c:1063-1077 *)
Example test_strbuf_append_printf : pass (
  b <- create 0; x <- S "Hello"; '(_, b) <- assign b x; '(v, b) <- append_printf b " Appending one more number 748921";
  do is v "Hello Appending one more number 748921"; do holds b "Hello Appending one more number 748921"; destroy b) = true.
Proof. vm_compute. reflexivity. Qed.
(** test.c:1079-1093 *)
Example test_strbuf_prnf : pass (
  b <- create 0; '(v, b) <- prnf b ("Hello from prnf!" ++ numbers)%string;
  do is v ("Hello from prnf!" ++ numbers)%string; do holds b ("Hello from prnf!" ++ numbers)%string; destroy b) = true.
Proof. vm_compute. reflexivity. Qed.
(** test.c:1095-1134 *)
Definition sixteen : string := "0123456789ABCDEF".
Definition fifteen_lines : string := String.concat "" (repeat sixteen 15).
Example test_strbuf_append_prnf : pass (
  b <- create 0; x <- S "Hello"; '(_, b) <- assign b x; '(v, b) <- append_prnf b " Appending one more number 748921";
  do is v "Hello Appending one more number 748921"; do holds b "Hello Appending one more number 748921";
  x <- S fifteen_lines; '(_, b) <- assign b x; '(_, b) <- append_printf b "012345670123456~";
  do holds b (fifteen_lines ++ "012345670123456~")%string;
  c <- ask (fun m => load_byte m (shift (cstr_of cf b) 255)); do ok (c =? INT "~"); destroy b) = true.
Proof. vm_compute. reflexivity. Qed.
(** test.c:1136-1158 *)
Example test_strbuf_assign : pass (
  b <- create 0; x <- S "***Hello test***"; '(v, b) <- assign b x; do is v "***Hello test***"; do holds b "***Hello test***";
  v <- view_of b; c <- S "*"; v <- ask (fun m => strview_trim cf m v c); '(_, b) <- assign b v; do holds b "Hello test";
  x <- S "Hello test"; '(v, b) <- assign b x; do is v "Hello test"; do holds b "Hello test"; destroy b) = true.
Proof. vm_compute. reflexivity. Qed.
Definition hello : string := "{Hello-testing-some-string}".
(** test.c:1160-1185 *)
Example test_strbuf_append : pass (
  b <- create 0; x <- S hello; '(_, b) <- assign b x; '(_, b) <- shrink b; v <- view_of b; '(v, b) <- append b v;
  do is v (hello ++ hello)%string; do holds b (hello ++ hello)%string;
  x <- S "{Hello-Fred}"; '(_, b) <- assign b x; '(_, b) <- shrink b; p <- P "{Hello-Bob}"; '(v, b) <- append_s b p;
  do is v "{Hello-Fred}{Hello-Bob}"; do holds b "{Hello-Fred}{Hello-Bob}"; destroy b) = true.
Proof. vm_compute. reflexivity. Qed.
(** test.c:1187-1212 *)
Example test_strbuf_prepend : pass (
  b <- create 0; x <- S hello; '(_, b) <- assign b x; '(_, b) <- shrink b; v <- view_of b; '(v, b) <- prepend b v;
  do is v (hello ++ hello)%string; do holds b (hello ++ hello)%string;
  x <- S "{Hello-Fred}"; '(_, b) <- assign b x; '(_, b) <- shrink b; p <- P "{Hello-Bob}"; '(v, b) <- prepend_s b p;
  do is v "{Hello-Bob}{Hello-Fred}"; do holds b "{Hello-Bob}{Hello-Fred}"; destroy b) = true.
Proof. vm_compute. reflexivity. Qed.
(** test.c:1214-1239 *)
Example test_strbuf_insert_at_index : pass (
  b <- create 0; x <- S hello; '(_, b) <- assign b x; '(_, b) <- shrink b; v <- view_of b; '(v, b) <- insert_at b 6 v;
  do is v "{Hello{Hello-testing-some-string}-testing-some-string}";
  do holds b "{Hello{Hello-testing-some-string}-testing-some-string}";
  '(_, b) <- assign b x; '(_, b) <- shrink b; p <- P "(random text)"; '(v, b) <- insert_at_s b 6 p;
  do is v "{Hello(random text)-testing-some-string}"; do holds b "{Hello(random text)-testing-some-string}"; destroy b) = true.
Proof. vm_compute. reflexivity. Qed.

(** test.c:1241-1348.  The lines of sometext with their endings. *)
Definition cr : list Z := [13].
Definition lf : list Z := [10].
Definition sometext : list (string * list Z) := [
  ("First line CRLF", cr ++ lf); ("Second line CR", cr); ("Third line LF", lf);
  ("CRLF line followed by an empty CR line", cr ++ lf); ("", cr);
  ("CRLF line followed by an empty LF line", cr ++ lf); ("", lf);
  ("CRLF line followed by an empty LFCR line", cr ++ lf); ("", lf ++ cr);
  ("LFCR line followed by an empty CR line", lf ++ cr); ("", cr);
  ("LFCR line followed by an empty LF line", lf ++ cr); ("", lf);
  ("LFCR line followed by an empty CRLF line", lf ++ cr); ("", cr ++ lf);
  ("CR line followed by an empty CRLF line", cr); ("", cr ++ lf);
  ("CR line followed by an empty LFCR line", cr); ("", lf ++ cr);
  ("LF line followed by an empty CRLF line", lf); ("", cr ++ lf);
  ("LF line followed by an empty LFCR line", lf); ("", lf ++ cr)].
Definition no_ending : string := "This text has no line ending".
Definition all_text : list Z := flat_map (fun x => bs (fst x) ++ snd x) sometext ++ bs no_ending.
(** A literal given by its bytes. *)
Definition L (l : list Z) : test view := fun w =>
  let m := s_mem w in
  Some (View (Ptr (PBlk (length m)) 0) (Zlen l), with_mem w (m ++ [blk (fresh_base cf m) (l ++ [0])])).
Definition split_line (s : view) (eol : option Z) : test (view * view * option Z) := fun w =>
  match strview_split_line cf (s_mem w) (Some s) eol with
  | Ok (v, Some s', e) => Some ((v, s', e), w) | _ => None end.
Fixpoint lines_of (s : view) (l : list (string * list Z)) : test view :=
  match l with
  | [] => done s
  | (t, _) :: r => '(v, s, _) <- split_line s None; do ok (strview_is_valid v); do is v t; lines_of s r
  end.
Example test_strview_split_line : pass (
  s <- L all_text; s <- lines_of s sometext;
  '(v, s, _) <- split_line s None; do invalid v; is s no_ending) = true.
Proof. vm_compute. reflexivity. Qed.
(** TEST_LINE_POP: append characters until a line comes out; what is left stays in the buffer. *)
Fixpoint line_pop (p : ptr) (eol : Z) (text : list Z) (want : string) : test (ptr * Z * list Z) :=
  match text with
  | [] => fun _ => None
  | c :: r =>
      '(_, p) <- append_char p c; s <- view_of p; '(v, s, e) <- split_line s (Some eol);
      match e with
      | Some e => if strview_is_valid v then do is v want; '(_, p) <- assign p s; done (p, e, r) else line_pop p e r want
      | None => fun _ => None
      end
  end.
Fixpoint lines_pop (p : ptr) (eol : Z) (text : list Z) (l : list (string * list Z)) : test ptr :=
  match l with
  | [] => done p
  | (t, _) :: r => '(p, eol, text) <- line_pop p eol text t; lines_pop p eol text r
  end.
Example test_strview_split_line_chars : pass (
  b <- create 0; b <- lines_pop b 0 all_text sometext; destroy b) = true.
Proof. vm_compute. reflexivity. Qed.

(** test.c:1350-1386 *)
Definition find_in (f : mem -> view -> view -> outcome view) (p : ptr) (s : string) : test view :=
  v <- view_of p; n <- S s; ask (fun m => f m v n).
Definition find_in_s (f : mem -> view -> ptr -> outcome view) (p : ptr) (s : string) : test view :=
  v <- view_of p; n <- P s; ask (fun m => f m v n).
Definition set (p : ptr) (s : string) : test ptr := v <- S s; '(_, p) <- assign p v; done p.
Example test_strbuf_insert_before : pass (
  b <- create 0;
  b <- set b "Hello"; v <- find_in (strview_find_last cf) b ""; x <- S "-test"; '(_, b) <- before b v x; do holds b "Hello-test";
  b <- set b "Hello Mellow"; v <- find_in (strview_find_last cf) b "ll"; x <- S "..."; '(_, b) <- before b v x; do holds b "Hello Me...llow";
  b <- set b "Hello Mellow"; v <- find_in (strview_find_first cf) b "ll"; x <- S "---"; '(_, b) <- before b v x; do holds b "He---llo Mellow";
  b <- set b "Hello Mellow"; v <- find_in (strview_find_first cf) b ""; x <- S "***"; '(_, b) <- before b v x; do holds b "***Hello Mellow";
  b <- set b "Hello Mellow"; v <- find_in_s (strview_find_last_cstr cf) b "ll"; x <- P "..."; '(_, b) <- before_s b v x; do holds b "Hello Me...llow";
  destroy b) = true.
Proof. vm_compute. reflexivity. Qed.
(** test.c:1388-1424 *)
Example test_strbuf_insert_after : pass (
  b <- create 0;
  b <- set b "Hello"; v <- find_in (strview_find_last cf) b ""; x <- S "-test"; '(_, b) <- after_ b v x; do holds b "Hello-test";
  b <- set b "Hello Mellow"; v <- find_in (strview_find_last cf) b "ll"; x <- S "..."; '(_, b) <- after_ b v x; do holds b "Hello Mell...ow";
  b <- set b "Hello Mellow"; v <- find_in (strview_find_first cf) b "ll"; x <- S "---"; '(_, b) <- after_ b v x; do holds b "Hell---o Mellow";
  b <- set b "Hello Mellow"; v <- find_in (strview_find_first cf) b ""; x <- S "***"; '(_, b) <- after_ b v x; do holds b "***Hello Mellow";
  b <- set b "Hello Mellow"; v <- find_in_s (strview_find_last_cstr cf) b "ll"; x <- P "..."; '(_, b) <- after_s b v x; do holds b "Hello Mell...ow";
  destroy b) = true.
Proof. vm_compute. reflexivity. Qed.
(** test.c:1426-1447 *)
Definition cstr_call (p : ptr) : test ptr := fun w =>
  match strbuf_to_cstr cf w (Some p) with Ok (q, Some z, w') => if is_null z then Some (q, w') else None | _ => None end.
Definition string_is (p : ptr) (s : string) : test unit :=
  v <- ask (fun m => cstr m p); is v s.
Example test_strbuf_to_cstr : pass (
  d <- create 0; s <- create_fixed static_buf 200;
  d <- set d "Some test string in a dynamic buffer, hello test."; s <- set s "Some test string in a static buffer, hello test.";
  p <- cstr_call d; q <- cstr_call s;
  do string_is p "Some test string in a dynamic buffer, hello test."; do string_is q "Some test string in a static buffer, hello test.";
  act (fun w => alloc_call cf w stdlib p 0)) = true.
Proof. vm_compute. reflexivity. Qed.

(** test.c:1449-1486 *)
Definition hello123 : string := "Hello-testing-123".
Definition move_by (v : view) (n : Z) : view := View (shift (v_data v) n) (v_size v).
Definition split_left s d := splits (fun m x => strview_split_left cf m x d) s.
Definition split_right s d := splits (fun m x => strview_split_right cf m x d) s.
Example test_strview_split_left : pass (
  s <- S hello123; n <- S "testing"; d <- ask (fun m => strview_find_first cf m s n); '(v, s) <- split_left s d;
  do is v "Hello-"; do is s "testing-123";
  s <- S hello123; n <- S ""; d <- ask (fun m => strview_find_first cf m s n); '(v, s) <- split_left s d; do empty v; do is s hello123;
  s <- S hello123; d <- ask (fun m => strview_find_last cf m s n); '(v, s) <- split_left s d; do empty s; do is v hello123;
  s <- S hello123; d <- ask (fun m => strview_find_first cf m s n); '(v, s) <- split_left s (move_by d (-1)); do invalid v; do is s hello123;
  s <- S hello123; d <- ask (fun m => strview_find_last cf m s n); '(v, s) <- split_left s (move_by d 1); do invalid v; is s hello123) = true.
Proof. vm_compute. reflexivity. Qed.
(** test.c:1488-1525 *)
Example test_strview_split_right : pass (
  s <- S hello123; n <- S "testing"; d <- ask (fun m => strview_find_first cf m s n); '(v, s) <- split_right s d;
  do is v "-123"; do is s "Hello-testing";
  s <- S hello123; n <- S ""; d <- ask (fun m => strview_find_first cf m s n); '(v, s) <- split_right s d; do empty s; do is v hello123;
  s <- S hello123; d <- ask (fun m => strview_find_last cf m s n); '(v, s) <- split_right s d; do empty v; do is s hello123;
  s <- S hello123; d <- ask (fun m => strview_find_first cf m s n); '(v, s) <- split_right s (move_by d (-1)); do invalid v; do is s hello123;
  s <- S hello123; d <- ask (fun m => strview_find_last cf m s n); '(v, s) <- split_right s (move_by d 1); do invalid v; is s hello123) = true.
Proof. vm_compute. reflexivity. Qed.
(** test.c:1527-1556 *)
Definition dequotes (a b : string) : test unit := s <- S a; v <- ask (fun m => strview_dequote cf m s); is v b.
Example test_strview_dequote : pass (
  do dequotes """Fred""" "Fred"; do dequotes "'Fred'" "Fred"; do dequotes """'Fred'""" "'Fred'"; do dequotes "'""Fred""'" """Fred""";
  do dequotes "''""Fred""''" """Fred"""; do dequotes """""'Fred'""""" "'Fred'"; do dequotes """'Fred""'" """'Fred""'";
  dequotes " ""Fred""" " ""Fred""") = true.
Proof. vm_compute. reflexivity. Qed.
(** test.c:1558-1567 *)
Example test_strview_contains : pass (
  let q a b := yes (strview_contains cf) (S a) (S b) in
  do q "bc..." "abc" false; do q "abc.." "abc" true; do q ".abc." "abc" true; do q ".abc." "aBc" false;
  do q "..abc" "abc" true; q "...ab" "abc" false) = true.
Proof. vm_compute. reflexivity. Qed.
(** test.c:1569-1577 *)
Example test_strview_contains_nocase : pass (
  let q a b := yes (strview_contains_nocase cf) (S a) (S b) in
  do q "bc..." "Abc" false; do q "abc.." "aBc" true; do q ".abc." "ABc" true; do q "..abc" "abC" true; q "...ab" "AbC" false) = true.
Proof. vm_compute. reflexivity. Qed.

(** test.c:1579-1796 *)
Definition parser : Type := mem -> bool -> option view -> Z -> outcome (parsed Z).
(** A parse that succeeds with the value [v] and leaves [rest]; one that fails with [e] and changes nothing. *)
Definition parses (f : parser) (opt : Z) (s : string) (v : Z) (rest : string) : test unit :=
  x <- S s; r <- ask (fun m => f m true (Some x) opt);
  match r with
  | Parsed NoErr (Some z) (Some y) => do ok (z =? v); is y rest
  | _ => fun _ => None
  end.
Definition fails (f : parser) (opt : Z) (s : string) (e : errno) : test unit :=
  x <- S s; r <- ask (fun m => f m true (Some x) opt);
  match r, e with
  | Parsed EINVAL None None, EINVAL | Parsed ERANGE None None, ERANGE => done tt
  | _, _ => fun _ => None
  end.
Definition i_uchar := strnum_consume_uchar cf.
Definition i_ushort := strnum_consume_ushort cf.
Definition i_uint := strnum_consume_uint cf.
Definition i_ulong := strnum_consume_ulong cf.
Definition i_ullong := strnum_consume_ullong cf.
Definition i_char := strnum_consume_char cf.
Definition i_short := strnum_consume_short cf.
Definition i_int := strnum_consume_int cf.
Definition i_long := strnum_consume_long cf.
Definition i_llong := strnum_consume_llong cf.
Example test_strnum_limits : pass (
  let at_limit f s v := parses f 0 s v "" in
  do at_limit i_uchar "255" 255; do at_limit i_ushort "65535" 65535; do at_limit i_uint "4294967295" 4294967295;
  do at_limit i_ulong "18446744073709551615" 18446744073709551615; do at_limit i_ullong "18446744073709551615" 18446744073709551615;
  do at_limit i_char "-128" (-128); do at_limit i_char "127" 127; do at_limit i_short "-32768" (-32768); do at_limit i_short "32767" 32767;
  do at_limit i_int "-2147483648" (-2147483648); do at_limit i_int "2147483647" 2147483647;
  do at_limit i_long "-9223372036854775808" (-9223372036854775808); do at_limit i_long "9223372036854775807" 9223372036854775807;
  do at_limit i_llong "-9223372036854775808" (-9223372036854775808); at_limit i_llong "9223372036854775807" 9223372036854775807) = true.
Proof. vm_compute. reflexivity. Qed.
Example test_strnum_over_limits : pass (
  let over f s := fails f 0 s ERANGE in
  do over i_uchar "256"; do over i_ushort "65536"; do over i_uint "4294967296"; do over i_ulong "18446744073709551616";
  do over i_ullong "18446744073709551616"; do over i_char "-129"; do over i_char "128"; do over i_short "-32769"; do over i_short "32768";
  do over i_int "-2147483649"; do over i_int "2147483648"; do over i_long "-9223372036854775809"; do over i_long "9223372036854775808";
  do over i_llong "-9223372036854775809"; over i_llong "9223372036854775808") = true.
Proof. vm_compute. reflexivity. Qed.
Example test_strnum_options : pass (
  do parses i_int 0 " 123" 123 ""; do fails i_int STRNUM_NOSPACE " 123" EINVAL;
  do parses i_int 0 "0b1001" 9 ""; do parses i_int 0 "0B1001" 9 ""; do parses i_int 0 "0x3fE1" 16353 ""; do parses i_int 0 "0X3Fe1" 16353 "";
  do parses i_int STRNUM_NOBX "0b1001" 0 "b1001"; do parses i_int STRNUM_NOBX "0B1001" 0 "B1001"; do parses i_int STRNUM_NOBX "0x3F711" 0 "x3F711";
  do fails i_int STRNUM_NOSIGN "+123" EINVAL;
  do parses i_int STRNUM_BASE_BIN "1001" 9 ""; do parses i_int STRNUM_BASE_BIN "0b1001" 9 ""; do parses i_int STRNUM_BASE_BIN "0x13F" 0 "x13F";
  do parses i_int STRNUM_BASE_HEX "3eF1" 16113 ""; do parses i_int STRNUM_BASE_HEX "0x3eF1" 16113 "";
  parses i_int STRNUM_BASE_HEX "0b100" 45312 "") = true.
Proof. vm_compute. reflexivity. Qed.

(** The floating point tests, with a pow(10, n) that is correctly rounded. *)
Definition pow10 (prec emax n : Z) : spec_float :=
  if n <? 0 then SFdiv prec emax (binary_normalize prec emax 1 0 false) (binary_normalize prec emax (10 ^ (- n)) 0 false)
  else binary_normalize prec emax (10 ^ n) 0 false.
(** The value as m * 2^e, scaled by 1000 and compared with 997 and 999 thousandths of (n * 2^k). *)
Definition near (x : spec_float) (n k : Z) : bool :=
  match x with
  | S754_finite false m e =>
      let b := Z.min e k in
      (997 * n * 2 ^ (k - b) <? 1000 * Zpos m * 2 ^ (e - b)) && (1000 * Zpos m * 2 ^ (e - b) <? 999 * n * 2 ^ (k - b))
  | _ => false
  end.
Definition float_near (prec emax : Z) (s : string) (n k : Z) : test unit :=
  x <- S s; r <- ask (fun m => strnum_consume_double cf (ieee prec emax (pow10 prec emax)) m true (Some x) 0);
  match r with Parsed NoErr (Some z) _ => ok (near z n k) | _ => fun _ => None end.
(** The texts are those that %Le prints for 0.998 times FLT_MAX, DBL_MAX, LDBL_MAX, FLT_MIN, DBL_MIN and LDBL_MIN. *)
Example test_strnum_float_limits : pass (
  do float_near 24 128 "3.396018e+38" (2 ^ 24 - 1) 104;
  do float_near 53 1024 "1.794098e+308" (2 ^ 53 - 1) 971;
  do float_near 64 16384 "1.187352e+4932" (2 ^ 64 - 1) 16320;
  do float_near 24 128 "1.173143e-38" 1 (-126);
  do float_near 53 1024 "2.220624e-308" 1 (-1022);
  float_near 64 16384 "3.355379e-4932" 1 (-16382)) = true.
Proof. vm_compute. reflexivity. Qed.
Example test_strnum_noexp : pass (
  x <- S "3.17E2"; r <- ask (fun m => strnum_consume_float cf (ieee 24 128 (pow10 24 128)) m true (Some x) STRNUM_NOEXP);
  match r with
  | Parsed NoErr (Some (S754_finite false m e)) (Some y) =>
      do ok ((31699 * 2 ^ (- e) <? 10000 * Zpos m) && (10000 * Zpos m <? 31701 * 2 ^ (- e))); is y "E2"
  | _ => fun _ => None
  end) = true.
Proof. vm_compute. reflexivity. Qed.

(** The harness does notice wrong texts, sizes and undefined behaviour. *)
Example harness_text : pass (v <- S "abc"; is v "abd") = false.
Proof. vm_compute. reflexivity. Qed.
Example harness_size : pass (b <- create 16; do cap_is b 17; destroy b) = false.
Proof. vm_compute. reflexivity. Qed.
Example harness_dead : pass (b <- create 16; do destroy b; holds b "") = false.
Proof. vm_compute. reflexivity. Qed.
