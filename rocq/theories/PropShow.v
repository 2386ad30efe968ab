(** Properties of what Paragraph.String shows. *)
From Coq Require Import String Ascii List Bool Arith NArith ZArith.
From Verif Require Import GoStr Num Lib Types Docx Api Text History SpecApi SpecBreak SpecShow ShowFacts.
Import ListNotations.
Local Open Scope list_scope.
Local Open Scope string_scope.

(** C71: after any history of calls, for any paragraph, String gives exactly
    the text of the specification, and gives it exactly when there is one (it
    panics otherwise, C64). *)
Theorem C71_shown : forall (L : GoLib) l w p s, run_ops l [] = Some w -> (para_string w p = Ok s <-> para_shown w p s).
Proof. exact @para_shown_iff. Qed.
Print Assumptions C71_shown.

Definition ex_lib : GoLib := {| lib_float := fun _ => None; lib_md5 := fun s => "md5 of " ++ s; lib_imgsize := fun _ => Some (i64_of 400, i64_of 300, "png") |}.
Definition ex_ops : list op := [ONew; OAddPara 0; OPara 0 (ABody 0) (OLink "here" "http://x"); OPara 0 (ABody 0) (ODrawing false "P1"); OPara 0 (ABody 0) (ODrawing true "P2")].
Definition ex_world : world := match @run_ops ex_lib ex_ops [] with Some w => w | None => [] end.
Definition ex_run (l : list rchild) : pchild := PRun (mk_runR "" None "" l).
Definition ex_draw (d : gdata) : rchild := RDraw (Some (set_inlineR_graphic (Some (mk_graphicR "" (Some d))) inlineR0)) None.
(** the drawings with the file filled in, as the decoder does (the API does not,
    and String panics, see C64) *)
Definition ex_file (c : pchild) : pchild :=
  match c with
  | PRun r => PRun (set_runR_children (map (fun c => match c with
      | RDraw (Some i) a => RDraw (Some (set_inlineR_file (Some 0) i)) a
      | RDraw None (Some a) => RDraw None (Some (set_anchorR_file (Some 0) a))
      | c => c end) (runR_children r)) r)
  | c => c
  end.
(** what the calls made, and then: a dead link, a shape, a canvas, a group, an
    anchor without content, a drawing without content *)
Definition ex_para : para :=
  match ex_world with
  | [d] => match d_items d with
           | [IPara p] => mk_para None (map ex_file (para_children p) ++ [PLink "rId99" (mk_runR "" None "there" []);
               ex_run [ex_draw (mk_gdataR "" None (Some (Shape (set_shapeR_sp (Some (set_sppr_geom (mk_geom "rect" false) sppr0)) shapeR0))) None None);
                       ex_draw (mk_gdataR "" None None (Some (Canvas canvasR0)) None); ex_draw (mk_gdataR "" None None None None)];
               ex_run [RDraw None (Some anchorR0); RTab (mk_tab "" i0); RDraw None None; RText (mk_text "" "end")]])%list (Some 0)
           | _ => mk_para None [] None
           end
  | _ => mk_para None [] None
  end.
Example C71_ex : @run_ops ex_lib ex_ops [] = Some ex_world /\
  @para_shown ex_lib ex_world ex_para ("[here](http://x)![inlnim " ++ TUPIAN ++ " 1](md5 of P1)![anchim " ++ TUPIAN ++ " 2](md5 of P2)[there](rId99)" ++
    "![inlnsp rect](rect)![inlncv nil]()![inln?](unknown)![anch?](unknown)" ++ String "009" "end").
Proof.
  assert (R : @run_ops ex_lib ex_ops [] = Some ex_world) by (vm_compute; reflexivity).
  split; [exact R|]. apply (C71_shown ex_lib _ _ _ _ R). vm_compute. reflexivity.
Qed.
(** The picture as the API made it has no file: String panics, and indeed
    nothing is shown according to the specification. *)
Example C71_ex_panic : @run_ops ex_lib ex_ops [] = Some ex_world /\
  exists d p, ex_world = [d] /\ d_items d = [IPara p] /\ ~ exists s, @para_shown ex_lib ex_world p s.
Proof.
  assert (R : @run_ops ex_lib ex_ops [] = Some ex_world) by (vm_compute; reflexivity).
  split; [exact R|]. destruct ex_world as [|d [|]] eqn:E; [vm_compute in E; discriminate| |vm_compute in E; discriminate].
  destruct (d_items d) as [|[p| |] [|]] eqn:I; try (rewrite <- (f_equal (fun l => match l with [x] => d_items x | _ => [] end) E) in I; vm_compute in I; discriminate).
  exists d, p. repeat split; auto. intros (s & K). apply (C71_shown ex_lib _ _ _ _ R) in K.
  assert (P : p = match ex_world with [d] => match d_items d with [IPara p] => p | _ => p end | _ => p end) by (rewrite E, I; reflexivity).
  rewrite P in K. rewrite <- E in K. vm_compute in K. discriminate.
Qed.
