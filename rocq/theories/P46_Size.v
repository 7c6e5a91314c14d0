(** * The size of a page (C101)

    [creole2html o md s] is [creole2html(s, ...)] (HtmlEmitter.v); [occurs m s] says that [m]
    stands somewhere in [s] (Spec49.v).  Sizes are numbers of characters. *)
From Coq Require Import String List Arith NArith ZArith Bool Lia.
From Verif Require Import PyStr Res HtmlEmitter Spec49 MarksFacts SizePage.
Import ListNotations.
Open Scope N_scope.

Definition size (s : str) : N := N.of_nat (List.length s).

(** a page without macros is at most quadratic in its markup *)
Theorem C101_size : forall (o : opts) (md : mdict) (s html : str),
  ~ occurs ($ "<<") s -> fst (creole2html o md s) = Ok html ->
  size html <= 1300 * (size s + 1) * (size s + 1).
Proof. exact lemma_C101. Qed.
Print Assumptions C101_size.
(** without marks for line breaks it is at most linear *)
Theorem C101_linear : forall (o : opts) (md : mdict) (s html : str),
  ~ occurs ($ "<<") s -> ~ occurs ($ "\\") s -> fst (creole2html o md s) = Ok html ->
  size html <= 2000 * (size s + 1).
Proof. exact lemma_C101_linear. Qed.
Print Assumptions C101_linear.
Definition size_text : str := $ "=a" ++ [10] ++ $ "***b" ++ [10] ++ $ "|&|{{c|d|3x4}}".
Example C101_case : ~ occurs ($ "<<") size_text /\ ~ occurs ($ "\\") size_text /\ size size_text = 22 /\
  exists html, fst (creole2html default_opts no_md size_text) = Ok html /\ size html = 131.
Proof. split; [apply not_occurs; reflexivity|]. split; [apply not_occurs; reflexivity|]. split; [reflexivity|]. eexists. split; vm_compute; reflexivity. Qed.

(** in a list a line break repeats the indentation: [4 * n + 8] characters can give [n * n] *)
Theorem C101_large : forall (o : opts) (md : mdict) (n : nat), exists s html,
  ~ occurs ($ "<<") s /\ List.length s = (4 * n + 8)%nat /\ fst (creole2html o md s) = Ok html /\ (n * n <= List.length html)%nat.
Proof.
  intros o md n. destruct (steep_page o md n) as (H1 & html & H2 & H3). exists (steep n), html. split; [exact H1|]. split; [apply steep_len|]. split; assumption.
Qed.
Print Assumptions C101_large.
Example C101_large_case : steep 2 = $ "* a" ++ [10] ++ $ "**** a\\a\\a" /\
  fst (creole2html default_opts no_md (steep 2)) =
  Ok ($ "<ul>" ++ [10; 9] ++ $ "<li>a" ++ [10; 9; 9; 9] ++ $ "<ul>" ++ [10; 9; 9; 9; 9] ++
      $ "<li>a<br />" ++ [10; 9; 9; 9; 9] ++ $ "a<br />" ++ [10; 9; 9; 9; 9] ++ $ "a</li>" ++ [10; 9; 9; 9] ++ $ "</ul></li>" ++ [10] ++ $ "</ul>").
Proof. split; vm_compute; reflexivity. Qed.
(** so no linear bound holds for all markup *)
Theorem C101_linear_refuted : ~ (exists k, forall (o : opts) (md : mdict) (s html : str),
  ~ occurs ($ "<<") s -> fst (creole2html o md s) = Ok html -> (List.length html <= k * (List.length s + 1))%nat).
Proof. exact lemma_C101_refuted. Qed.
Print Assumptions C101_linear_refuted.
