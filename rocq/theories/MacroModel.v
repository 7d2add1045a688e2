(** Model of the preprocessor layer of the headers: counting of arguments, selection of functions by the type of
    an argument, string literals.  None is a program that does not compile. *)
From Verif Require Import Base Mem Libc StrviewModel StrnumModel Alloc StrbufModel.
Local Open Scope Z_scope.

(** ** Counting arguments *)
(** A preprocessor argument: empty, an expression of the user, or a number of the macro. *)
(** strbuf.h:130-160: what stands between the commas. *)
Inductive pp_arg (A : Type) : Type := Empty | Expr (a : A) | Num (n : Z).
Arguments Empty {A}.
Arguments Expr {A}.
Arguments Num {A}.

(** strbuf.h:132-145 the named parameters of PP_128TH_ARG; 0 stands for N *)
Definition pp_params : list Z :=
  [1; 2; 3; 4; 5; 6; 7; 8; 9; 10;
   11; 12; 13; 14; 15; 16; 17; 18; 19; 20;
   21; 22; 23; 24; 25; 26; 27; 28; 29; 30;
   31; 32; 33; 34; 35; 36; 37; 38; 39; 40;
   41; 42; 43; 44; 45; 46; 47; 48; 49; 50;
   51; 52; 53; 54; 55; 56; 57; 58; 59; 60;
   61; 62; 63; 64; 65; 66; 67; 68; 69; 70;
   71; 72; 73; 74; 75; 76; 77; 78; 79; 80;
   81; 82; 83; 84; 85; 86; 87; 88; 89; 90;
   91; 92; 93; 94; 95; 96; 97; 98; 99; 100;
   101; 102; 103; 104; 105; 106; 107; 108; 109; 110;
   111; 112; 113; 114; 115; 116; 117; 118; 119; 120;
   121; 122; 123; 124; 125; 126; 127; 0].

(** strbuf.h:147-160 PP_RSEQ_N *)
Definition pp_rseq_n : list Z :=
  [127; 126; 125; 124; 123; 122; 121; 120;
   119; 118; 117; 116; 115; 114; 113; 112; 111; 110;
   109; 108; 107; 106; 105; 104; 103; 102; 101; 100;
   99; 98; 97; 96; 95; 94; 93; 92; 91; 90;
   89; 88; 87; 86; 85; 84; 83; 82; 81; 80;
   79; 78; 77; 76; 75; 74; 73; 72; 71; 70;
   69; 68; 67; 66; 65; 64; 63; 62; 61; 60;
   59; 58; 57; 56; 55; 54; 53; 52; 51; 50;
   49; 48; 47; 46; 45; 44; 43; 42; 41; 40;
   39; 38; 37; 36; 35; 34; 33; 32; 31; 30;
   29; 28; 27; 26; 25; 24; 23; 22; 21; 20;
   19; 18; 17; 16; 15; 14; 13; 12; 11; 10;
   9; 8; 7; 6; 5; 4; 3; 2; 1; 0].

(** Replacement of a parameter by its argument: the argument at the position of the parameter. *)
(** strbuf.h:132-145: N stands for the argument at its position. *)
Fixpoint pp_lookup {T} (name : Z) (params : list Z) (args : list T) : option T :=
  match params, args with
  | q :: params', x :: args' => if q =? name then Some x else pp_lookup name params' args'
  | _, _ => None
  end.
(** Parameters of a macro have different names (C11 6.10.3p6). *)
(** strbuf.h:132-145. *)
Fixpoint pp_distinct (params : list Z) : bool :=
  match params with [] => true | q :: t => negb (existsb (Z.eqb q) t) && pp_distinct t end.
(** A macro with "..." needs more arguments than named parameters (C11 6.10.3p4). *)
(** strbuf.h:132-145 PP_128TH_ARG. *)
Definition pp_128th_arg {T} (args : list T) : option T :=
  if pp_distinct pp_params && (Z.of_nat (length pp_params) <? Z.of_nat (length args)) then pp_lookup 0 pp_params args else None.

(** strbuf.h:130-131 PP_NARG, PP_NARG_; no arguments at all are one empty argument *)
Definition va_args {A} (l : list A) : list (pp_arg A) := match l with [] => [Empty] | _ => map Expr l end.
(** strbuf.h:130 PP_NARG *)
Definition pp_narg {A} (l : list A) : option (pp_arg A) := pp_128th_arg (va_args l ++ map Num pp_rseq_n).

Section Cfg.
Variable cf : cfg.

(** strbuf.c:141-150 _strbuf_cat: n_args views are read from the variable arguments (a negative count reads none) *)
Definition strbuf_cat_n (w : st) (bp : option ptr) (n_args : Z) (va : list view) : outcome ret :=
  if Z.of_nat (length va) <? n_args then
    match bp with
    | Some p => if is_null p then Ok (INVALID, bp, w) else UB UB_varg
    | None => Ok (INVALID, bp, w)
    end
  else strbuf_cat cf w bp (firstn (Z.to_nat n_args) va).
(** strbuf.h:177 strbuf_cat: the count must be an expression of integer type (a view is none) and the
    list of arguments must not be empty *)
Definition strbuf_cat_macro (w : st) (bp : option ptr) (l : list view) : option (outcome ret) :=
  match pp_narg l, l with
  | Some (Num n), _ :: _ => Some (strbuf_cat_n w bp n l)
  | _, _ => None
  end.

(** ** Selection by type *)
(** An argument with its type after conversion: const char*, char*, strview_t or any other type. *)
(** The types named at strview.h:92-96 and strbuf.h:253-257. *)
Inductive targ : Type := AConst (p : ptr) | AChar (p : ptr) | AView (v : view) | AOther.
(** _Generic with the three associations of strview.h and strbuf.h, in their order. *)
(** strview.h:92-96, 106-110 ... 292-296; strbuf.h:253-257 ... 332-336. *)
Definition generic {R} (const_char char_ptr : ptr -> R) (strview : view -> R) (a : targ) : option R :=
  match a with
  | AConst p => Some (const_char p)
  | AChar p => Some (char_ptr p)
  | AView v => Some (strview v)
  | AOther => None
  end.

(** strview.h:92-96 *)
Definition is_match_macro (m : mem) (s : view) := generic (strview_is_match_cstr cf m s) (strview_is_match_cstr cf m s) (strview_is_match cf m s).
(** strview.h:106-110 *)
Definition is_match_nocase_macro (m : mem) (s : view) :=
  generic (strview_is_match_nocase_cstr cf m s) (strview_is_match_nocase_cstr cf m s) (strview_is_match_nocase cf m s).
(** strview.h:127-131 *)
Definition starts_with_macro (m : mem) (s : view) :=
  generic (strview_starts_with_cstr cf m s) (strview_starts_with_cstr cf m s) (strview_starts_with cf m s).
(** strview.h:148-152 *)
Definition starts_with_nocase_macro (m : mem) (s : view) :=
  generic (strview_starts_with_nocase_cstr cf m s) (strview_starts_with_nocase_cstr cf m s) (strview_starts_with_nocase cf m s).
(** strview.h:169-173 *)
Definition trim_macro (m : mem) (s : view) := generic (strview_trim_cstr cf m s) (strview_trim_cstr cf m s) (strview_trim cf m s).
(** strview.h:190-194 *)
Definition trim_start_macro (m : mem) (s : view) :=
  generic (strview_trim_start_cstr cf m s) (strview_trim_start_cstr cf m s) (strview_trim_start cf m s).
(** strview.h:211-215 *)
Definition trim_end_macro (m : mem) (s : view) :=
  generic (strview_trim_end_cstr cf m s) (strview_trim_end_cstr cf m s) (strview_trim_end cf m s).
(** strview.h:232-236 *)
Definition find_first_macro (m : mem) (s : view) :=
  generic (strview_find_first_cstr cf m s) (strview_find_first_cstr cf m s) (strview_find_first cf m s).
(** strview.h:252-256 *)
Definition find_first_nocase_macro (m : mem) (s : view) :=
  generic (strview_find_first_nocase_cstr cf m s) (strview_find_first_nocase_cstr cf m s) (strview_find_first_nocase cf m s).
(** strview.h:272-276 *)
Definition find_last_macro (m : mem) (s : view) :=
  generic (strview_find_last_cstr cf m s) (strview_find_last_cstr cf m s) (strview_find_last cf m s).
(** strview.h:292-296 *)
Definition find_last_nocase_macro (m : mem) (s : view) :=
  generic (strview_find_last_nocase_cstr cf m s) (strview_find_last_nocase_cstr cf m s) (strview_find_last_nocase cf m s).
(** strbuf.h:253-257 *)
Definition append_macro (w : st) (bp : option ptr) :=
  generic (strbuf_append_cstr cf w bp) (strbuf_append_cstr cf w bp) (strbuf_append_strview cf w bp).
(** strbuf.h:269-273 *)
Definition prepend_macro (w : st) (bp : option ptr) :=
  generic (strbuf_prepend_cstr cf w bp) (strbuf_prepend_cstr cf w bp) (strbuf_prepend_strview cf w bp).
(** strbuf.h:286-290 *)
Definition insert_at_index_macro (w : st) (bp : option ptr) (i : Z) :=
  generic (strbuf_insert_at_index_cstr cf w bp i) (strbuf_insert_at_index_cstr cf w bp i) (strbuf_insert_at_index_strview cf w bp i).
(** strbuf.h:302-306 *)
Definition insert_before_macro (w : st) (bp : option ptr) (dst : view) :=
  generic (strbuf_insert_before_cstr cf w bp dst) (strbuf_insert_before_cstr cf w bp dst) (strbuf_insert_before_strview cf w bp dst).
(** strbuf.h:318-322 *)
Definition insert_after_macro (w : st) (bp : option ptr) (dst : view) :=
  generic (strbuf_insert_after_cstr cf w bp dst) (strbuf_insert_after_cstr cf w bp dst) (strbuf_insert_after_strview cf w bp dst).
(** strbuf.h:332-336 *)
Definition strip_macro (w : st) (bp : option ptr) :=
  generic (strbuf_strip_cstr cf w bp) (strbuf_strip_cstr cf w bp) (strbuf_strip_strview cf w bp).

(** strbuf.h:194-198 strbuf_create: size_t, int (converted to size_t by the call) or strview_t *)
Inductive init : Type := ISize (n : Z) | IInt (n : Z) | IView (v : view) | IOther.
(** strbuf.h:194-198 strbuf_create *)
Definition create_macro (w : st) (dflt : allocator) (i : init) (a : option allocator) : option (outcome (ptr * st)) :=
  match i with
  | ISize n => Some (strbuf_create_empty cf w dflt n a)
  | IInt n => Some (strbuf_create_empty cf w dflt (n mod 2 ^ (8 * c_ptrbytes cf)) a)
  | IView v => Some (strbuf_create_init cf w dflt v a)
  | IOther => None
  end.

(** ** String literals *)
(** strview.h:74 cstr_SL: size_t is converted to int; [size] is sizeof of the argument *)
Definition cstr_sl (p : ptr) (size : Z) : view := View p (to_int (size - 1)).

(** ** strnum_value *)
(** The types of destinations; signed char is not char. *)
(** strnum.h:93-105 (signed char and bool are not among them). *)
Inductive dtype : Type := DUchar | DUshort | DUint | DUlong | DUllong | DSchar | DChar | DShort | DInt | DLong | DLlong
  | DFloat | DDouble | DLdouble | DBool.
(** Equality of types; no counterpart in /repo, selection of strnum.h:92-106. *)
Definition dtype_eqb (a b : dtype) : bool :=
  match a, b with
  | DUchar, DUchar | DUshort, DUshort | DUint, DUint | DUlong, DUlong | DUllong, DUllong | DSchar, DSchar | DChar, DChar
  | DShort, DShort | DInt, DInt | DLong, DLong | DLlong, DLlong | DFloat, DFloat | DDouble, DDouble | DLdouble, DLdouble | DBool, DBool => true
  | _, _ => false
  end.
(** Tokens of a list of associations "type : function" *)
(** strnum.h:93-105. *)
Inductive gtok (F : Type) : Type := GType (t : dtype) | GColon | GFun (f : F) | GComma.
Arguments GType {F}.
Arguments GColon {F}.
Arguments GFun {F}.
Arguments GComma {F}.
(** C11 6.5.1.1 generic-assoc-list: associations separated by commas *)
(** Applied to strnum.h:92-106 and 108-119. *)
Fixpoint generic_assocs {F} (l : list (gtok F)) : option (list (dtype * F)) :=
  match l with
  | GType t :: GColon :: GFun f :: rest =>
      match rest with
      | [] => Some [(t, f)]
      | GComma :: rest' => match generic_assocs rest' with Some r => Some ((t, f) :: r) | None => None end
      | _ => None
      end
  | _ => None
  end.
(** The function for a pointer to [t]; no association for the type is an error. *)
(** strnum.h:92-106, xendian.h:61-70. *)
Fixpoint generic_select {F} (t : dtype) (l : list (dtype * F)) : option F :=
  match l with
  | [] => None
  | (u, f) :: l' => if dtype_eqb t u then Some f else generic_select t l'
  end.
(** One line of strnum.h:93-105, without the comma. *)
Definition assoc {F} (t : dtype) (f : F) : list (gtok F) := [GType t; GColon; GFun f].

Variable A32 A64 A80 : arith.
(** The parser of an integer type, or of a floating point type. *)
(** strnum.h:93-102 and 103-105. *)
Inductive parser : Type :=
| PInt (f : mem -> bool -> option view -> Z -> outcome (parsed Z))
| PFlt (A : arith) (f : mem -> bool -> option view -> Z -> outcome (parsed (a_t A))).
(** strnum.h:92-106 and 108-119, the ten integer types *)
Definition int_assocs (last : list (gtok parser)) : list (gtok parser) :=
  assoc DUchar (PInt (strnum_consume_uchar cf)) ++ [GComma] ++
  assoc DUshort (PInt (strnum_consume_ushort cf)) ++ [GComma] ++
  assoc DUint (PInt (strnum_consume_uint cf)) ++ [GComma] ++
  assoc DUlong (PInt (strnum_consume_ulong cf)) ++ [GComma] ++
  assoc DUllong (PInt (strnum_consume_ullong cf)) ++ [GComma] ++
  assoc DChar (PInt (strnum_consume_char cf)) ++ [GComma] ++
  assoc DShort (PInt (strnum_consume_short cf)) ++ [GComma] ++
  assoc DInt (PInt (strnum_consume_int cf)) ++ [GComma] ++
  assoc DLong (PInt (strnum_consume_long cf)) ++ [GComma] ++
  assoc DLlong (PInt (strnum_consume_llong cf)) ++ [GComma] ++ last.
(** strnum.h:92-106 strnum_value, with floating point *)
Definition value_assocs : list (gtok parser) :=
  int_assocs (assoc DFloat (PFlt A32 (strnum_consume_float cf A32)) ++ [GComma] ++
              assoc DDouble (PFlt A64 (strnum_consume_double cf A64)) ++ [GComma] ++
              assoc DLdouble (PFlt A80 (strnum_consume_double cf A80))).
(** strnum.h:108-119 strnum_value with STRNUM_NOFLOAT: the last association is followed by a comma *)
Definition value_assocs_nofloat : list (gtok parser) := int_assocs [].
(** strnum.h:92-106 strnum_value, and 108-119 with STRNUM_NOFLOAT *)
Definition strnum_value_macro (nofloat : bool) (t : dtype) : option parser :=
  match generic_assocs (if nofloat then value_assocs_nofloat else value_assocs) with
  | Some l => generic_select t l
  | None => None
  end.
End Cfg.
