(** Model of the rest of the example program that splits a URI into its components:
    main and show_uri (/repo/examples/parse-uri/parse-uri.c).  The result is the text written
    to the standard output; printf is taken from ISO C 7.21.6.1 for the formats that occur. *)
From Coq Require Import String Ascii.
From Verif Require Import Base Mem Libc StrviewModel StrnumModel UriModel Alloc StrbufModel ExamplesModel.
Local Open Scope list_scope.
Local Open Scope Z_scope.

(** The characters of a string literal of the program. *)
(** The literals of parse-uri.c, main(). *)
Fixpoint chars (s : string) : list Z :=
  match s with EmptyString => [] | String c r => Z.of_N (N_of_ascii c) :: chars r end.

(** parse-uri.c:77-106 demo_string *)
Definition demo_string : list (list Z) := map chars [
  "http:";
  "http:home";
  "http:home/fred";
  "http://github.com";
  "http://github.com/path";
  "http://github.com/home/fred";
  "http://mickjc750@github.com";
  "http://mickjc750@github.com/path";
  "http://mickjc750@github.com/home/fred";
  "http://github.com:80";
  "http://github.com:80/path";
  "http://github.com:80/home/fred";
  "http://mickjc750@github.com:80";
  "http://mickjc750@github.com:80/path";
  "http://mickjc750@github.com:80/home/fred";
  "github.com";
  "github.com/path";
  "github.com/home/fred";
  "mickjc750@github.com";
  "mickjc750@github.com/path";
  "mickjc750@github.com/home/fred";
  "github.com:80";
  "github.com:80/path";
  "github.com:80/home/fred";
  "mickjc750@github.com:80";
  "mickjc750@github.com:80/path";
  "mickjc750@github.com:80/home/fred"]%string.

Section Cfg.
Variable cf : cfg.

(** parse-uri.c:194-203: if(strview_is_valid(v)) printf("label\"%"PRIstr"\"\n", PRIstrarg(v)) *)
Definition show_part (m : mem) (label : string) (v : view) : outcome (list Z) :=
  if strview_is_valid v
  then let! t := show_view cf m v in Ok (chars label ++ [34] ++ t ++ [34; 10])
  else Ok [].

(** parse-uri.c:192-205 show_uri *)
Definition show_uri (m : mem) (u : uri) : outcome (list Z) :=
  let! a := show_part m "scheme = " (u_scheme u) in
  let! b := show_part m "host   = " (u_host u) in
  let! c := show_part m "path   = " (u_path u) in
  let! d := show_part m "user   = " (u_user u) in
  let! e := show_part m "port   = " (u_port u) in
  Ok (a ++ b ++ c ++ d ++ e ++ [10]).

(** parse-uri.c:124, 130 show_uri(parse_uri(cstr(s))) *)
Definition show_parsed (m : mem) (s : ptr) : outcome (list Z) :=
  let! v := cstr m s in let! u := parse_uri cf m v in show_uri m u.

(** parse-uri.c:127-132, the loop over the demo strings *)
Fixpoint show_demos (m : mem) (l : list (list Z)) : outcome (list Z) :=
  match l with
  | [] => Ok []
  | s :: rest =>
      let! a := show_cstr m (lit s) in
      let! b := show_parsed m (lit s) in
      let! r := show_demos m rest in
      Ok ([91] ++ a ++ [93; 10] ++ b ++ r)
  end.

(** parse-uri.c:119-136 main; [argv]: the arguments, argc of them (argv[argc] is a null pointer) *)
Definition uri_main (m : mem) (argv : list ptr) : outcome (list Z) :=
  match argv with
  | _ :: a1 :: _ => show_parsed m a1
  | _ =>
      let! d := show_demos m demo_string in
      let! a := show_cstr m (hd null argv) in
      Ok (d ++ chars "To run with a custom string use " ++ a ++ chars " <string>" ++ [10])
  end.

End Cfg.
