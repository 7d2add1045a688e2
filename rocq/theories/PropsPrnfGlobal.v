(** Property theorems about prnf() and the function it prints through (C164). *)
From Coq Require Import String.
From Verif Require Import Base Mem Libc StrviewModel Spec MemLemmas StrviewProofs StrviewProofs3 NumSpec StrnumProofs3
  PrnfModel PrnfSpec PrnfSpec2 PrnfProofs4 PrnfProofs5 PrnfProofs9 PrnfGlobalModel PrnfGlobalSpec PrnfGlobalProofs
  ExampleLib PropsNum PropsBuf PropsBuf2 PropsPrnf.
Local Open Scope string_scope.
Local Open Scope list_scope.
Local Open Scope Z_scope.

(** ** C164: the default output *)
(** One call: the function assigned when the call starts gets all of the text, with NULL for its
    void*, even if it assigns another one meanwhile; without one the text is only counted. *)
Theorem C164_prnf : forall cf A W (rd : W -> mem) wr H run (g : genv W H) fmt items va (J : genv W H -> Prop), wf_cfg cf ->
  (forall h g1 c g2, g_out W H g = Some h -> J g1 -> run h null g1 c = Ok g2 -> J g2) ->
  (forall g, J g -> given (rd (g_user W H g)) fmt items) -> J g -> plain_items cf items -> Zlen (plain cf items) < INT_MAX ->
  prnf_g cf A W rd wr H run g fmt (arguments cf items ++ va) =
    match g_out W H g with
    | Some h => let! g := feed (run h null) g (plain cf items) in Ok (Zlen (plain cf items), g)
    | None => Ok (Zlen (plain cf items), g)
    end.
Proof.
  intros cf A W rd wr H run g fmt items va J Wf Hj Hg Hs Hp Ht. unfold prnf_g. rewrite (fptr_g_ok cf A W rd wr H run Wf (g_out W H g) null g fmt items va J); auto.
  unfold deliver. destruct (g_out W H g); reflexivity.
Qed.
Print Assumptions C164_prnf.
(** Before anything is assigned prnf prints nothing, changes nothing and returns the length. *)
Theorem C164_start : forall cf A W (rd : W -> mem) wr H run w fmt items va, wf_cfg cf ->
  given (rd w) fmt items -> plain_items cf items -> Zlen (plain cf items) < INT_MAX ->
  prnf_g cf A W rd wr H run (started W H w) fmt (arguments cf items ++ va) = Ok (Zlen (plain cf items), started W H w).
Proof.
  intros cf A W rd wr H run w fmt items va Wf Hg Hp Ht. apply (C164_prnf cf A W rd wr H run (started W H w) fmt items va (fun g => g = started W H w)); auto; [discriminate|now intros g ->].
Qed.
Print Assumptions C164_start.
(** Programs: each text goes to the function named in the call or assigned last, in the order of
    the calls, and each call returns the length of its own text. *)
Theorem C164_program : forall cf A W (rd : W -> mem) wr H run act (J : W -> Prop) (l : list (said H (dbl A))) f w, wf_cfg cf ->
  (forall h x g c, run h x g c = let! w := act h x (g_user W H g) c in Ok (Genv W H (g_out W H g) w)) ->
  (forall h x w c w', J w -> act h x w c = Ok w' -> J w') -> (forall w, J w -> Forall (said_ok cf (rd w)) l) -> J w ->
  exec cf A W rd wr H run (map (code cf A H) l) (Genv W H f w) = let! (r, (f, w)) := told cf act l f w in Ok (r, Genv W H f w).
Proof. intros cf A W rd wr H run act J l f w Wf Ht Hj Hl Hw. now apply (exec_ok cf A W rd wr H run Wf act Ht J). Qed.
Print Assumptions C164_program.
(** lcd_prnf of the documentation prints to its own function and leaves the default output alone. *)
Theorem C164_module : forall cf A W (rd : W -> mem) wr H run act (J : W -> Prop) h fmt items va f w, wf_cfg cf ->
  (forall h x g c, run h x g c = let! w := act h x (g_user W H g) c in Ok (Genv W H (g_out W H g) w)) ->
  (forall h x w c w', J w -> act h x w c = Ok w' -> J w') -> (forall w, J w -> given (rd w) fmt items) -> J w ->
  plain_items cf items -> Zlen (plain cf items) < INT_MAX ->
  lcd_prnf cf A W rd wr H run h (Genv W H f w) fmt (arguments cf items ++ va) = let! w := feed (act h null) w (plain cf items) in Ok (Genv W H f w).
Proof.
  intros cf A W rd wr H run act J h fmt items va f w Wf Ht Hj Hg Hw Hp Hl. unfold lcd_prnf.
  rewrite (call_tame cf A W rd wr H run Wf act Ht J); auto; [|intros w1 J1; destruct (Hg w1 J1); repeat split; auto].
  unfold deliver. destruct (feed (act h null) w (plain cf items)); reflexivity.
Qed.
Print Assumptions C164_module.

(** A program with two functions, a terminal and a display; the state is what they show.  The
    terminal notes whether it got a pointer. *)
Inductive fn2 : Type := Term | Disp.
Definition show2 (h : fn2) (x : ptr) (w : list Z * list Z) (c : Z) : outcome (list Z * list Z) :=
  match h with
  | Term => Ok (fst w ++ (if is_null x then [c] else [64; c]), snd w)
  | Disp => Ok (fst w, snd w ++ [c])
  end.
Definition run2 (h : fn2) (x : ptr) (g : genv (list Z * list Z) fn2) (c : Z) : outcome (genv (list Z * list Z) fn2) :=
  let! w := show2 h x (g_user _ _ g) c in Ok (Genv _ _ (g_out _ _ g) w).
Definition nr {D} (n : Z) : list (item D) := [Dec false (bare Lint) n].
Definition nr_mem : mem := xmem (bs "%d" ++ [0]) (bs "s" ++ [0]).
Definition prog2 {D} : list (said fn2 D) :=
  [Say xfmt (nr 1); Use (Some Term); Say xfmt (nr 23); SayTo (Some Disp) null xfmt (nr (-456)); Say xfmt (nr 78);
   SayTo (Some Term) xfmt xfmt (nr 90); Use (Some Disp); Say xfmt (nr 12); Use None; Say xfmt (nr 345)].
Example C164_prog_ex : forall A, Forall (said_ok gcc64 nr_mem) (@prog2 (dbl A))
  /\ told gcc64 show2 (@prog2 (dbl A)) None ([], []) = Ok ([1; 2; 4; 2; 2; 2; 3], (None, (bs "2378@9@0", bs "-45612")))
  /\ exec gcc64 A _ (fun _ => nr_mem) (fun w _ => w) fn2 run2 (map (code gcc64 A fn2) prog2) (started _ fn2 ([], [])) =
       Ok ([1; 2; 4; 2; 2; 2; 3], Genv _ _ None (bs "2378@9@0", bs "-45612"))
  /\ lcd_prnf gcc64 A _ (fun _ => nr_mem) (fun w _ => w) fn2 run2 Disp (Genv _ _ (Some Term) (bs "a", bs "b")) xfmt (arguments gcc64 (nr 7)) = Ok (Genv _ _ (Some Term) (bs "a", bs "b7")).
Proof.
  intros A. split; [|repeat split; vm_compute; reflexivity].
  assert (forall n, plain_items gcc64 (@nr (dbl A) n) -> Zlen (plain gcc64 (@nr (dbl A) n)) < INT_MAX -> said_ok gcc64 nr_mem (@Say fn2 (dbl A) xfmt (nr n))) as Q.
  { intros n Hn Hl. split; [exact Hn|]. split; [exact Hl|]. split; [apply bytes_atb_ok; vm_compute; reflexivity|]. repeat constructor. }
  unfold prog2. repeat (apply Forall_cons; [first [exact Logic.I|apply Q; [items_check|vm_compute; reflexivity]]|]). apply Forall_nil.
Qed.
(** A terminal that hands over to the display at its first character: it still gets the rest of
    that text, the next one goes to the display. *)
Definition run3 (h : fn2) (x : ptr) (g : genv (list Z * list Z) fn2) (c : Z) : outcome (genv (list Z * list Z) fn2) :=
  let! w := show2 h x (g_user _ _ g) c in Ok (Genv _ _ (Some Disp) w).
Example C164_ex : forall A, plain_items gcc64 (@row (dbl A)) /\ given row_mem xfmt (@row (dbl A)) /\ Zlen (plain gcc64 (@row (dbl A))) < INT_MAX
  /\ prnf_g gcc64 A _ (fun _ => row_mem) (fun w _ => w) fn2 run3 (Genv _ _ (Some Term) ([], [])) xfmt (arguments gcc64 row) = Ok (27, Genv _ _ (Some Disp) (row_text, []))
  /\ prnf_g gcc64 A _ (fun _ => row_mem) (fun w _ => w) fn2 run3 (Genv _ _ (Some Disp) (row_text, [])) xfmt (arguments gcc64 row) = Ok (27, Genv _ _ (Some Disp) (row_text, row_text))
  /\ prnf_g gcc64 A _ (fun _ => row_mem) (fun w _ => w) fn2 run3 (started _ _ ([], [])) xfmt (arguments gcc64 row) = Ok (27, started _ _ ([], [])).
Proof. intros A. split; [apply row_ok|]. split; [apply row_given|]. repeat split; vm_compute; reflexivity. Qed.
