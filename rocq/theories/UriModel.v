(** Model of the example program that splits a URI into its components
    (/repo/examples/parse-uri/parse-uri.c).  main and show_uri are in UriMainModel.v. *)
From Verif Require Import Base Mem Libc StrviewModel StrnumModel.

(** parse-uri.c:57-64 struct uri_struct *)
Record uri : Type := Uri { u_scheme : view; u_host : view; u_path : view; u_user : view; u_port : view }.

Section Cfg.
Variable cf : cfg.

(** parse-uri.c:150,154,160,172,180: strview_split_first_delim(&uri, "d", false) for a
    one-character literal; the address of a local variable is never NULL. *)
Definition cut_at (m : mem) (u : view) (d : Z) : outcome (view * view) :=
  let! (r, s) := strview_split_first_delim cf m (Some u) (lit [d]) false in
  match s with Some u' => Ok (r, u') | None => UB UB_null end.

(** parse-uri.c:142-190 parse_uri.  [struct uri_struct result = {0}] makes every
    component the invalid view. *)
Definition parse_uri (m : mem) (u : view) : outcome uri :=
  (* 147-152 *)
  let! f := strview_find_first_cstr cf m u (lit [58; 47; 47]) in
  let! (scheme, u) :=
    if strview_is_valid f
    then let! (s, u) := cut_at m u 58 in
         let! u := strview_sub cf m u 2 INT_MAX in Ok (s, u)
    else Ok (INVALID, u) in
  (* 154-156 *)
  let! (user, u) := cut_at m u 64 in
  let (user, u) := if strview_is_valid u then (user, u) else strview_swap user u in
  (* 158 *)
  let! f := strview_find_first_cstr cf m u (lit [58]) in
  if negb (strview_is_valid f)
  then
    (* 160-167 *)
    let! (tmp, u) := cut_at m u 47 in
    if strview_is_valid u
    then Ok (Uri scheme tmp u user INVALID)
    else Ok (Uri scheme tmp INVALID user INVALID)
  else
    (* 171-174 *)
    let! (tmp, u) := cut_at m u 58 in
    let (tmp, u) := if strview_is_valid u then (tmp, u) else strview_swap tmp u in
    let! dig := at_digit cf m u in
    if dig
    then
      (* 175-182 *)
      let! (port, u) := cut_at m u 47 in
      Ok (Uri scheme tmp (if strview_is_valid u then u else INVALID) user port)
    else
      (* 184-188 *)
      Ok (Uri tmp INVALID (if v_size u =? 0 then INVALID else u) user INVALID).

End Cfg.
