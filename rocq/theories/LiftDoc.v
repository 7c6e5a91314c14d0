(** * What stands before does not matter

    The parser never looks at the finished blocks of the document, nor at the macro names
    collected so far: with more blocks in front of it, a run does the same. *)
From Coq Require Import String List Arith NArith ZArith Bool Lia.
From Verif Require Import PyStr PyStrFacts GNames Regex Rules DocTree CreoleParser.
Import ListNotations.
Open Scope N_scope.

Section Lift.
Variable old : list node.
Variable u : list str.
Hypothesis old_ok : match old with n :: _ => kind_beq (nkind n) KBreak = false | [] => True end.

Fixpoint lift_stk (k : list frame) : list frame :=
  match k with
  | [] => []
  | (h, ch) :: r => match r with [] => [(h, ch ++ old)] | _ => (h, ch) :: lift_stk r end
  end.
Definition lift (s : ps) : ps := mkps (lift_stk (stk s)) (txt s) (u ++ used s) (perr s).

(** the bottom of the stack is the document *)
Fixpoint based (k : list frame) : Prop :=
  match k with
  | [] => False
  | (h, _) :: r => match r with [] => hk h = KDocument | _ => based r end
  end.
Definition K (s : ps) : Prop := based (stk s).
Definition J (s : ps) : Prop := K s /\ (txt s = true -> cur_children s <> []).
Definition B (s : ps) : Prop := K s /\ txt s = false.
Definition comm (P Q : ps -> Prop) (f : ps -> ps) : Prop := forall s, P s -> Q (f s) /\ f (lift s) = lift (f s).

Lemma comm_comp : forall P Q R f g, comm P Q f -> comm Q R g -> comm P R (fun s => g (f s)).
Proof. intros P Q R f g F G s H. destruct (F s H) as [H1 E1]. destruct (G _ H1) as [H2 E2]. split; [exact H2|]. rewrite E1. exact E2. Qed.
Lemma comm_id : forall P, comm P P (fun s => s).
Proof. intros P s H. split; [exact H|reflexivity]. Qed.
Lemma comm_imp : forall (P P' Q Q' : ps -> Prop) f, (forall s, P' s -> P s) -> (forall s, Q s -> Q' s) -> comm P Q f -> comm P' Q' f.
Proof. intros P P' Q Q' f H1 H2 F s H. destruct (F s (H1 s H)) as [A E]. auto. Qed.
Lemma comm_ext : forall P Q f g, (forall s, f s = g s) -> comm P Q f -> comm P Q g.
Proof. intros P Q f g E F s H. rewrite <- !E. apply F. exact H. Qed.
Lemma comm_if : forall (P Q : ps -> Prop) (b : ps -> bool) f g, (forall s, P s -> b (lift s) = b s) -> comm (fun s => P s /\ b s = true) Q f -> comm (fun s => P s /\ b s = false) Q g -> comm P Q (fun s => if b s then f s else g s).
Proof. intros P Q b f g Hb F G s H. rewrite (Hb s H). destruct (b s) eqn:E; [apply (F s)|apply (G s)]; auto. Qed.
Lemma B_J : forall s, B s -> J s. Proof. intros s [H1 H2]. split; [exact H1|]. rewrite H2. discriminate. Qed.
Lemma B_K : forall s, B s -> K s. Proof. intros s [H1 H2]. exact H1. Qed.
Lemma J_K : forall s, J s -> K s. Proof. intros s [H1 H2]. exact H1. Qed.

Lemma lift_cons : forall f k, k <> [] -> lift_stk (f :: k) = f :: lift_stk k.
Proof. intros [h ch] k H. destruct k; [congruence|reflexivity]. Qed.
Lemma lift_length : forall k, List.length (lift_stk k) = List.length k.
Proof. induction k as [|[h ch] k IH]; [reflexivity|]. destruct k as [|f k]; [reflexivity|]. rewrite lift_cons by discriminate. cbn [List.length]. rewrite IH. reflexivity. Qed.
Lemma lift_nil : forall k, lift_stk k = [] -> k = [].
Proof. intros [|[h ch] [|f k]] H; [reflexivity|discriminate|]. rewrite lift_cons in H by discriminate. discriminate. Qed.
Lemma based_cons : forall f k, based k -> based (f :: k).
Proof. intros [h ch] k H. destruct k; [contradiction|exact H]. Qed.
Lemma based_head : forall h ch ch' k, based ((h, ch) :: k) -> based ((h, ch') :: k).
Proof. intros h ch ch' [|f k] H; exact H. Qed.
Lemma K_set : forall k s, based k -> K (set_stk k s). Proof. auto. Qed.
Lemma lift_set : forall k s, lift (set_stk k s) = set_stk (lift_stk k) (lift s). Proof. reflexivity. Qed.
Lemma cur_kind_lift : forall s, cur_kind (lift s) = cur_kind s.
Proof. intros [k t us e]. unfold cur_kind, lift. cbn [stk]. destruct k as [|[h ch] [|f k]]; reflexivity. Qed.

(** ** moves *)
Lemma comm_raise : forall P : ps -> Prop, (forall s, P s -> P (raise_ s)) -> comm P P raise_.
Proof. intros P H s Hs. split; [apply H; exact Hs|reflexivity]. Qed.
Lemma raise_K : forall s, K s -> K (raise_ s). Proof. auto. Qed.
Lemma raise_J : forall s, J s -> J (raise_ s). Proof. auto. Qed.
Lemma raise_B : forall s, B s -> B (raise_ s). Proof. auto. Qed.
Lemma comm_append : forall n, comm K (fun s => K s /\ cur_children s <> []) (append_child n).
Proof.
  intros n [k t us e] H. unfold K in H. cbn [stk] in H. destruct k as [|[h ch] k]; [contradiction|]. unfold append_child. split.
  - split; [destruct k; exact H|discriminate].
  - unfold lift, set_stk. cbn [stk txt used perr]. destruct k as [|f k]; reflexivity.
Qed.
Lemma comm_append_K : forall n, comm K K (append_child n).
Proof. intro n. eapply comm_imp; [| |apply comm_append]; cbv beta; intros; tauto. Qed.
Lemma append_txt : forall n s, txt (append_child n s) = txt s.
Proof. intros n [k t us e]. unfold append_child. cbn [stk]. destruct k as [|[h ch] k]; reflexivity. Qed.
Lemma comm_append_B : forall n, comm B B (append_child n).
Proof. intros n s [H1 H2]. destruct (comm_append_K n s H1) as [A E]. split; [split; [exact A|rewrite append_txt; exact H2]|exact E]. Qed.
Lemma comm_open : forall h, comm K (fun s => K s /\ exists f r, stk s = f :: r /\ r <> []) (open_ h).
Proof.
  intros h [k t us e] H. unfold K in *. cbn [stk] in H. assert (k <> []) by (destruct k; [contradiction|discriminate]). split.
  - split; [apply based_cons; exact H|]. exists (h, []), k. auto.
  - unfold open_, lift, set_stk. cbn [stk txt used perr]. rewrite lift_cons by assumption. reflexivity.
Qed.
Lemma comm_open_K : forall h, comm K K (open_ h).
Proof. intro n. eapply comm_imp; [| |apply comm_open]; cbn; tauto. Qed.
Lemma comm_open_B : forall h, comm B B (open_ h).
Proof. intros n s [H1 H2]. destruct (comm_open_K n s H1) as [A E]. split; [split; [exact A|exact H2]|exact E]. Qed.
Lemma comm_txt_false : comm K B (set_txt false).
Proof. intros s H. split; [split; [exact H|reflexivity]|reflexivity]. Qed.
Lemma comm_txt_false_J : comm K J (set_txt false).
Proof. eapply comm_imp; [| |exact comm_txt_false]; [tauto|apply B_J]. Qed.
Lemma comm_txt_true : comm (fun s => K s /\ cur_children s <> []) J (set_txt true).
Proof. intros s [H1 H2]. split; [split; [exact H1|intros _; exact H2]|reflexivity]. Qed.
Lemma pop1_lift : forall k, lift_stk (pop1 k) = pop1 (lift_stk k) /\ (based k -> based (pop1 k)).
Proof.
  intros [|[h ch] [|[h' ch'] [|f k]]]; split; try reflexivity; intro H; exact H.
Qed.
Lemma pop_n_lift : forall n k, lift_stk (pop_n n k) = pop_n n (lift_stk k) /\ (based k -> based (pop_n n k)).
Proof.
  induction n as [|n IH]; intro k; [split; auto|]. cbn [pop_n]. destruct (pop1_lift k) as [E H]. destruct (IH (pop1 k)) as [E2 H2]. rewrite E2, E. auto.
Qed.
Lemma comm_pop1 : comm K K (fun s => set_stk (pop1 (stk s)) s).
Proof. intros s H. destruct (pop1_lift (stk s)) as [E Hb]. split; [apply K_set, Hb, H|]. rewrite lift_set, E. reflexivity. Qed.
Lemma comm_pop_n : forall n, comm K K (fun s => set_stk (pop_n n (stk s)) s).
Proof. intros n s H. destruct (pop_n_lift n (stk s)) as [E Hb]. split; [apply K_set, Hb, H|]. rewrite lift_set, E. reflexivity. Qed.
Lemma comm_pop_to : forall d, comm K K (pop_to d).
Proof.
  intros d s H. unfold pop_to. destruct (pop_n_lift (List.length (stk s) - d) (stk s)) as [E Hb]. split; [apply K_set, Hb, H|].
  rewrite lift_set, E. change (stk (lift s)) with (lift_stk (stk s)). rewrite lift_length. reflexivity.
Qed.
Lemma comm_cleanup : comm K K cleanup_break.
Proof.
  intros [k t us e] H. unfold K in *. cbn [stk] in H. unfold cleanup_break. destruct k as [|[h ch] k]; [contradiction|]. cbn [stk]. destruct k as [|f k].
  - unfold lift. cbn [stk txt used perr lift_stk]. destruct ch as [|n ch]; cbn [app].
    + split; [exact H|]. cbn [stk txt used perr lift_stk app]. pose proof old_ok as X. destruct old as [|n o]; [reflexivity|]. rewrite X. reflexivity.
    + destruct (kind_beq (nkind n) KBreak); (split; [exact H|reflexivity]).
  - unfold lift. cbn [stk txt used perr]. rewrite (lift_cons (h, ch)) by discriminate. destruct ch as [|n ch]; [split; [exact H|reflexivity]|].
    destruct (kind_beq (nkind n) KBreak); (split; [exact H|reflexivity]).
Qed.
Lemma upto_lift : forall kinds up h ch, lift_stk (upto_loop kinds h ch up) = match lift_stk (@cons frame (h, ch) up) with (h', ch') :: up' => upto_loop kinds h' ch' up' | [] => [] end /\
  (based (@cons frame (h, ch) up) -> based (upto_loop kinds h ch up)).
Proof.
  intros kinds. induction up as [|[h' ch'] up IH]; intros h ch; [split; [reflexivity|auto]|]. rewrite lift_cons by discriminate. cbn [upto_loop].
  destruct (IH h' (Nd h (rev ch) :: ch')) as [E Hb].
  assert (X : exists (x : list node) (y : list frame), lift_stk (@cons frame (h', ch') up) = @cons frame (h', x) y /\ lift_stk (@cons frame (h', Nd h (rev ch) :: ch') up) = @cons frame (h', Nd h (rev ch) :: x) y).
  { destruct up as [|f up]; [exists (ch' ++ old), []; split; reflexivity|]. exists ch', (lift_stk (f :: up)). split; rewrite lift_cons by discriminate; reflexivity. }
  destruct X as (x & y & E1 & E2). rewrite E2 in E. rewrite E1. cbn [upto_loop]. destruct (kind_in (hk h) kinds).
  - rewrite lift_cons, E1 by discriminate. auto.
  - split; [exact E|]. intro H. apply Hb. destruct up; exact H.
Qed.
Lemma comm_upto : forall kinds, comm K K (upto kinds).
Proof.
  intros kinds. unfold upto. apply (comm_comp K K K cleanup_break (fun s => match stk s with (h, ch) :: up => set_stk (upto_loop kinds h ch up) s | [] => raise_ s end)); [exact comm_cleanup|].
  intros s H. unfold K in *. destruct s as [k t us e]. cbn [stk] in *. destruct k as [|[h ch] k]; [contradiction|]. destruct (upto_lift kinds k h ch) as [E Hb]. split; [apply K_set, Hb, H|].
  rewrite lift_set, E. unfold lift at 1. cbn [stk]. destruct k; reflexivity.
Qed.
Lemma upto_txt : forall kinds s, txt (upto kinds s) = txt s.
Proof.
  intros kinds s. unfold upto. assert (E : txt (cleanup_break s) = txt s) by (unfold cleanup_break; destruct (stk s) as [|[h [|n ch]] up]; try reflexivity; destruct (kind_beq _ _); reflexivity).
  destruct (stk (cleanup_break s)) as [|[h ch] up]; exact E.
Qed.
Lemma comm_upto_B : forall kinds, comm B B (upto kinds).
Proof. intros kinds s [H1 H2]. destruct (comm_upto kinds s H1) as [A E]. split; [split; [exact A|rewrite upto_txt; exact H2]|exact E]. Qed.
Lemma comm_upto_block : comm B B upto_block. Proof. apply comm_upto_B. Qed.
Lemma pop_to_txt : forall d s, txt (pop_to d s) = txt s. Proof. reflexivity. Qed.
Lemma comm_pop_to_B : forall d, comm B B (pop_to d).
Proof. intros d s [H1 H2]. destruct (comm_pop_to d s H1) as [A E]. split; [split; [exact A|exact H2]|exact E]. Qed.
Lemma comm_need : forall (P Q : ps -> Prop) g x f, (forall s, P s -> Q (raise_ s)) -> (forall v, comm P Q (f v)) -> comm P Q (fun s => need g x s (fun v => f v s)).
Proof. intros P Q g x f H F s Hs. unfold need. destruct (group g x) as [v|]; [apply (F v s Hs)|]. split; [apply H; exact Hs|reflexivity]. Qed.
Lemma comm_add_text : forall w, comm J J (add_text w).
Proof.
  intros w [k t us e] [H Ht]. unfold K in H. cbn [stk txt] in *. unfold add_text. cbn [txt]. destruct k as [|[h ch] k]; [contradiction|]. unfold cur_children in Ht. cbn [stk] in Ht. destruct t.
  - destruct ch as [|[th tch] ch]; [destruct (Ht eq_refl); reflexivity|]. unfold lift. cbn [stk txt used perr].
    destruct k as [|f k]; cbn [lift_stk app]; destruct (hcontent th) as [cc|];
      (split; [split; [exact H|intros _; discriminate]|]); try reflexivity.
  - unfold append_child, lift, set_stk, set_txt. cbn [stk txt used perr]. split; [split; [destruct k; exact H|intros _; discriminate]|]. destruct k as [|f k]; reflexivity.
Qed.
Lemma comm_fold : forall (A : Type) (P : ps -> Prop) (f : ps -> A -> ps) l, (forall x, comm P P (fun s => f s x)) -> comm P P (fun s => fold_left f l s).
Proof.
  intros A P f l H. induction l as [|x l IH]; [apply comm_id|]. cbn [fold_left]. apply (comm_comp P P P (fun s => f s x) (fun s => fold_left f l s)); [apply H|exact IH].
Qed.
Lemma comm_replace : forall (P : ps -> Prop) gs h x, (forall g y, comm P P (h g y)) -> comm P P (fun s => replace_ gs h s x).
Proof.
  intros P gs h x H s Hs. unfold replace_. change (perr (lift s)) with (perr s). destruct (perr s); [split; [exact Hs|reflexivity]|]. destruct (first_group gs x) as [g|]; [apply (H g x s Hs)|split; [exact Hs|reflexivity]].
Qed.

(** ** inline handlers *)
Lemma comm_leaf : forall n, comm K J (fun s => set_txt false (append_child n s)).
Proof. intro n. apply (comm_comp K K J (append_child n) (set_txt false)); [apply comm_append_K|apply comm_txt_false_J]. Qed.
Lemma comm_leafJ : forall n, comm J J (fun s => set_txt false (append_child n s)).
Proof. intro n. eapply comm_imp; [exact J_K| |apply comm_leaf]. auto. Qed.
Lemma comm_url : forall x, comm J J (url_repl x).
Proof. intro x. apply (comm_need J J G_url_target x); [exact raise_J|]. intro v. destruct (truthy (group0 G_escaped_url x)); [apply comm_add_text|apply comm_leafJ]. Qed.
Lemma comm_image : forall x, comm J J (image_repl x).
Proof. intro x. apply (comm_need J J G_image_target x); [exact raise_J|]. intro v. apply comm_leafJ. Qed.
Lemma comm_linebreak : comm J J linebreak_repl. Proof. apply comm_leafJ. Qed.
Lemma comm_escape : forall x, comm J J (escape_repl x).
Proof. intro x. apply (comm_need J J G_escaped_char x (fun c => add_text c)); [exact raise_J|]. intro v. apply comm_add_text. Qed.
Lemma comm_char : forall x, comm J J (char_repl x).
Proof. intro x. apply (comm_need J J G_char x (fun c => add_text c)); [exact raise_J|]. intro v. apply comm_add_text. Qed.
Lemma comm_pre_inline : forall x, comm J J (pre_inline_repl x).
Proof. intro x. apply (comm_need J J G_pre_inline_text x); [exact raise_J|]. intro v. apply comm_leafJ. Qed.
Lemma comm_add_macro : forall k n a t, comm K B (add_macro k n a t).
Proof.
  intros k n a t s H. unfold add_macro. destruct (comm_append_K (Nd (mkh k (option_map strip t) 0 n (strip a)) []) s H) as [A E]. rewrite E. split; [split; [exact A|reflexivity]|].
  unfold lift. cbn [stk used perr txt]. rewrite app_assoc. reflexivity.
Qed.
Lemma comm_macro_tag : forall x, comm J J (macro_tag_repl x).
Proof.
  intro x. apply (comm_need J J G_macro_tag_name x (fun n s => need G_macro_tag_args x s (fun a => add_macro KMacroInline n a None s))); [exact raise_J|]. intro n.
  apply (comm_need J J G_macro_tag_args x (fun a => add_macro KMacroInline n a None)); [exact raise_J|]. intro a. eapply comm_imp; [exact J_K|exact B_J|apply comm_add_macro].
Qed.
Lemma comm_macro_inline : forall x, comm J J (macro_inline_repl x).
Proof.
  intro x. apply (comm_need J J G_macro_inline_start x (fun n s => need G_macro_inline_args x s (fun a => need G_macro_inline_text x s (fun t => add_macro KMacroInline n a (Some t) s)))); [exact raise_J|]. intro n.
  apply (comm_need J J G_macro_inline_args x (fun a s => need G_macro_inline_text x s (fun t => add_macro KMacroInline n a (Some t) s))); [exact raise_J|]. intro a.
  apply (comm_need J J G_macro_inline_text x (fun t => add_macro KMacroInline n a (Some t))); [exact raise_J|]. intro t. eapply comm_imp; [exact J_K|exact B_J|apply comm_add_macro].
Qed.
Lemma comm_link_text : forall g x, comm J J (link_text_handler g x).
Proof. intros g x. destruct g; cbn [link_text_handler]; first [apply comm_image|apply comm_linebreak|apply comm_char|apply comm_raise; exact raise_J]. Qed.
Lemma comm_opened : forall h, comm K J (fun s => set_txt false (open_ h s)).
Proof. intro h. apply (comm_comp K K J (open_ h) (set_txt false)); [apply comm_open_K|apply comm_txt_false_J]. Qed.
Lemma comm_link : forall x, comm J J (link_repl x).
Proof.
  intro x. unfold link_repl. apply (comm_need J J G_link_target x (fun target s => _)); [exact raise_J|]. intro target. intros s Hs. cbv zeta.
  change (stk (lift s)) with (lift_stk (stk s)). rewrite lift_length.
  apply (comm_comp J J J (fun s => set_txt false (open_ (mkn KLink (Some target)) s))
    (fun s0 => set_txt false (pop_to (List.length (stk s)) (fold_left (replace_ link_groups link_text_handler) (finditer link_re (strip (group0 G_link_text x))) s0)))); [| |exact Hs].
  - eapply comm_imp; [exact J_K| |apply comm_opened]. auto.
  - apply (comm_comp J J J (fun s0 => fold_left (replace_ link_groups link_text_handler) (finditer link_re (strip (group0 G_link_text x))) s0) (fun s0 => set_txt false (pop_to (List.length (stk s)) s0))).
    + apply comm_fold. intro y. apply comm_replace. exact comm_link_text.
    + apply (comm_comp J K J (pop_to (List.length (stk s))) (set_txt false)); [|apply comm_txt_false_J]. eapply comm_imp; [exact J_K| |apply comm_pop_to]. auto.
Qed.
Lemma comm_mark : forall pi k gt x, (forall t, comm J J (pi t)) -> comm J J (inline_mark pi k gt x).
Proof.
  intros pi k gt x Hp. unfold inline_mark.
  apply (comm_comp J J J (fun s => set_txt false (open_ (mkn k None) s)) (fun s => need gt x s (fun text => set_txt false (set_stk (pop1 (stk (upto [k] (pi text s)))) (upto [k] (pi text s)))))).
  - eapply comm_imp; [exact J_K| |apply comm_opened]. auto.
  - apply (comm_need J J gt x (fun text s => set_txt false (set_stk (pop1 (stk (upto [k] (pi text s)))) (upto [k] (pi text s))))); [exact raise_J|]. intro text.
    apply (comm_comp J J J (pi text) (fun s => set_txt false (set_stk (pop1 (stk (upto [k] s))) (upto [k] s)))); [apply Hp|].
    apply (comm_comp J K J (upto [k]) (fun s => set_txt false (set_stk (pop1 (stk s)) s))); [eapply comm_imp; [exact J_K| |apply comm_upto]; auto|].
    apply (comm_comp K K J (fun s => set_stk (pop1 (stk s)) s) (set_txt false)); [apply comm_pop1|apply comm_txt_false_J].
Qed.
Lemma comm_inline : forall pi g x, (forall t, comm J J (pi t)) -> comm J J (inline_handler pi g x).
Proof.
  intros pi g x Hp. destruct g; cbn [inline_handler];
    first [apply comm_link|apply comm_url|apply comm_macro_inline|apply comm_macro_tag|apply comm_pre_inline|apply comm_image|apply comm_mark; exact Hp|apply comm_linebreak|apply comm_escape|apply comm_char|apply comm_raise; exact raise_J].
Qed.
Lemma comm_parse_inline : forall t, comm J J (parse_inline t).
Proof.
  intro t. unfold parse_inline. generalize (S (List.length t)). intro n. revert t. induction n as [|n IH]; intro t; [apply comm_id|]. cbn [parse_inline_f].
  apply comm_fold. intro x. apply comm_replace. intros g y. apply comm_inline. exact IH.
Qed.

(** ** block handlers *)
Definition text_put (x : mtch) (s : ps) (text : str) : ps := set_txt false
     (let s1 := parse_inline (if truthy (group0 G_space x) && negb (is_nil (cur_children s)) then 32 :: text else text) s in
      if truthy (group0 G_break x) && kind_in (cur_kind s1) [KParagraph; KEmphasis; KStrong; KPreInline] then append_child (Nd (mkn KBreak (Some [])) []) s1 else s1).
Lemma comm_text : forall x, comm B B (text_repl x).
Proof.
  intro x. unfold text_repl. cbv zeta.
  apply (comm_comp B B B (fun s => if kind_in (cur_kind s) [KTable; KTableRow; KBulletList; KNumberList] then upto_block s else s)
    (fun s => need G_text x (if kind_in (cur_kind s) [KDocument] then open_ (mkn KParagraph None) s else s) (text_put x (if kind_in (cur_kind s) [KDocument] then open_ (mkn KParagraph None) s else s)))).
  { apply comm_if; [intros s _; rewrite cur_kind_lift; reflexivity| |]; (eapply comm_imp; [| |first [exact comm_upto_block|exact (comm_id B)]]); cbv beta; intros; tauto. }
  apply (comm_comp B (fun s => B s /\ exists f r, stk s = f :: r /\ r <> []) B (fun s => if kind_in (cur_kind s) [KDocument] then open_ (mkn KParagraph None) s else s) (fun s => need G_text x s (text_put x s))).
  { apply comm_if; [intros s _; rewrite cur_kind_lift; reflexivity| |].
    - intros s [[H1 H2] _]. destruct (comm_open (mkn KParagraph None) s H1) as [[A1 A2] E]. split; [split; [split; [exact A1|exact H2]|exact A2]|exact E].
    - intros s [[H1 H2] N]. split; [|reflexivity]. split; [split; assumption|]. unfold K in H1. unfold cur_kind in N. destruct (stk s) as [|[h ch] [|f r]]; [contradiction| |].
      + cbn [based] in H1. rewrite H1 in N. discriminate N.
      + eexists. eexists. split; [reflexivity|discriminate]. }
  apply (comm_need _ B G_text x (fun text s => text_put x s text)).
  { intros s [H _]. exact H. }
  intros text s [Hs (f & r & E & Hr)]. unfold text_put.
  assert (EC : cur_children (lift s) = cur_children s). { unfold cur_children, lift. cbn [stk]. rewrite E, lift_cons by exact Hr. reflexivity. }
  rewrite EC. clear EC. match goal with |- context [parse_inline ?w0 s] => generalize w0 end. intro w.
  revert s Hs E. intros s Hs _. cbv zeta.
  apply (comm_comp B J B (parse_inline w) (fun s1 => set_txt false (if truthy (group0 G_break x) && kind_in (cur_kind s1) [KParagraph; KEmphasis; KStrong; KPreInline] then append_child (Nd (mkn KBreak (Some [])) []) s1 else s1))); [| |exact Hs].
  - eapply comm_imp; [exact B_J| |apply comm_parse_inline]. auto.
  - apply (comm_comp J K B (fun s1 => if truthy (group0 G_break x) && kind_in (cur_kind s1) [KParagraph; KEmphasis; KStrong; KPreInline] then append_child (Nd (mkn KBreak (Some [])) []) s1 else s1) (set_txt false)); [|apply comm_txt_false].
    apply comm_if; [intros s1 _; rewrite cur_kind_lift; reflexivity| |].
    + eapply comm_imp; [| |apply comm_append_K]; [intros s1 [H _]; exact (J_K _ H)|auto].
    + eapply comm_imp; [| |apply (comm_id K)]; [intros s1 [H _]; exact (J_K _ H)|auto].
Qed.
Lemma comm_macro_block : forall x, comm B B (macro_block_repl x).
Proof.
  intro x. unfold macro_block_repl. apply (comm_comp B B B upto_block (fun s => let s1 := pop_to 1 s in need G_macro_block_start x s1 (fun n => need G_macro_block_args x s1 (fun a => need G_macro_block_text x s1 (fun t => add_macro KMacroBlock n a (Some t) s1))))); [exact comm_upto_block|].
  apply (comm_comp B B B (pop_to 1) (fun s1 => need G_macro_block_start x s1 (fun n => need G_macro_block_args x s1 (fun a => need G_macro_block_text x s1 (fun t => add_macro KMacroBlock n a (Some t) s1))))); [apply comm_pop_to_B|].
  apply (comm_need B B G_macro_block_start x (fun n s => need G_macro_block_args x s (fun a => need G_macro_block_text x s (fun t => add_macro KMacroBlock n a (Some t) s)))); [exact raise_B|]. intro n.
  apply (comm_need B B G_macro_block_args x (fun a s => need G_macro_block_text x s (fun t => add_macro KMacroBlock n a (Some t) s))); [exact raise_B|]. intro a.
  apply (comm_need B B G_macro_block_text x (fun t => add_macro KMacroBlock n a (Some t))); [exact raise_B|]. intro t. eapply comm_imp; [exact B_K| |apply comm_add_macro]. auto.
Qed.
Lemma comm_separator : comm B B separator_repl.
Proof. apply (comm_comp B B B upto_block (append_child (Nd (mkn KSeparator None) []))); [exact comm_upto_block|apply comm_append_B]. Qed.
Lemma comm_line : comm B B line_repl.
Proof. apply (comm_comp B B B upto_block (append_child (Nd (mkn KLine (Some [])) []))); [exact comm_upto_block|apply comm_append_B]. Qed.
Lemma find_list_lift : forall level k n, find_list level n (lift_stk k) = find_list level n k.
Proof.
  intros level. induction k as [|[h ch] k IH]; intro n; [reflexivity|]. destruct k as [|f k]; [reflexivity|]. rewrite lift_cons by discriminate. cbn [find_list] in *. destruct ((kind_in (hk h) list_kinds && (hlevel h =? level)%nat) || kind_in (hk h) [KDocument]); [reflexivity|]. apply IH.
Qed.
Lemma comm_item : forall x, comm B B (item_repl x).
Proof.
  intro x. unfold item_repl. apply (comm_need B B G_item_head x (fun bullet s => need G_item_text x s (fun text => _))); [exact raise_B|]. intro bullet.
  apply (comm_need B B G_item_text x (fun text s => _)); [exact raise_B|]. intro text. destruct (rev bullet) as [|b0 rb]; [apply comm_raise; exact raise_B|]. cbv zeta.
  set (k := if b0 =? 35 then KNumberList else KBulletList). set (level := (List.length bullet - 1)%nat).
  apply (comm_comp B B B (fun s => match find_list level 0 (stk s) with Some (n, h) => if kind_beq (hk h) k then set_stk (pop_n n (stk s)) s else open_ (mkl k None level) (upto [KListItem; KDocument] s) | None => open_ (mkl k None level) (upto [KListItem; KDocument] s) end)
    (fun s => set_txt false (parse_inline text (open_ (mkl KListItem None (level + 1)) s)))).
  - assert (F : comm B B (fun s => open_ (mkl k None level) (upto [KListItem; KDocument] s))) by (apply (comm_comp B B B (upto [KListItem; KDocument]) (open_ (mkl k None level))); [apply comm_upto_B|apply comm_open_B]).
    intros s Hs. change (stk (lift s)) with (lift_stk (stk s)). rewrite find_list_lift. destruct (find_list level 0 (stk s)) as [[n h]|]; [|apply (F s Hs)]. destruct (kind_beq (hk h) k); [|apply (F s Hs)].
    destruct Hs as [H1 H2]. destruct (comm_pop_n n s H1) as [A E]. split; [split; [exact A|exact H2]|exact E].
  - apply (comm_comp B B B (open_ (mkl KListItem None (level + 1))) (fun s => set_txt false (parse_inline text s))); [apply comm_open_B|].
    apply (comm_comp B K B (parse_inline text) (set_txt false)); [|apply comm_txt_false]. eapply comm_imp; [exact B_J|exact J_K|apply comm_parse_inline].
Qed.
Lemma comm_list : forall x, comm B B (list_repl x).
Proof.
  intro x. apply (comm_need B B G_list x (fun l s => fold_left (replace_ item_groups item_handler) (finditer item_re l) s)); [exact raise_B|]. intro l. apply comm_fold. intro y. apply comm_replace.
  intros g z. destruct g; cbn [item_handler]; first [apply comm_item|apply comm_raise; exact raise_B].
Qed.
Lemma comm_head : forall x, comm B B (head_repl x).
Proof.
  intro x. unfold head_repl. apply (comm_comp B B B upto_block (fun s => need G_head_text x s (fun t => need G_head_head x s (fun h => set_txt false (append_child (Nd (mkl KHeader (Some (strip t)) (List.length h)) []) s))))); [exact comm_upto_block|].
  apply (comm_need B B G_head_text x (fun t s => need G_head_head x s (fun h => set_txt false (append_child (Nd (mkl KHeader (Some (strip t)) (List.length h)) []) s)))); [exact raise_B|]. intro t.
  apply (comm_need B B G_head_head x (fun h s => set_txt false (append_child (Nd (mkl KHeader (Some (strip t)) (List.length h)) []) s))); [exact raise_B|]. intro h.
  apply (comm_comp B K B (append_child (Nd (mkl KHeader (Some (strip t)) (List.length h)) [])) (set_txt false)); [|apply comm_txt_false]. eapply comm_imp; [exact B_K| |apply comm_append_K]. auto.
Qed.
Lemma comm_cell : forall d x, comm K K (fun s => cell_step d s x).
Proof.
  intros d x s Hs. unfold cell_step. change (perr (lift s)) with (perr s). destruct (perr s); [split; [exact Hs|reflexivity]|]. revert s Hs. change (comm K K (fun s => let s1 := pop_to d s in
    if truthy (group0 G_cell x) then parse_inline (strip (group0 G_cell x)) (set_txt false (open_ (mkn KTableCell None) s1))
    else need G_head x s1 (fun h => parse_inline (strip_chars ($ "= ") h) (set_txt true (append_child (Nd (mkn KText (Some [])) []) (open_ (mkn KTableHead None) s1)))))).
  apply (comm_comp K K K (pop_to d) (fun s1 => if truthy (group0 G_cell x) then parse_inline (strip (group0 G_cell x)) (set_txt false (open_ (mkn KTableCell None) s1))
    else need G_head x s1 (fun h => parse_inline (strip_chars ($ "= ") h) (set_txt true (append_child (Nd (mkn KText (Some [])) []) (open_ (mkn KTableHead None) s1)))))); [apply comm_pop_to|].
  destruct (truthy (group0 G_cell x)).
  - apply (comm_comp K J K (fun s => set_txt false (open_ (mkn KTableCell None) s)) (parse_inline (strip (group0 G_cell x)))); [apply comm_opened|]. eapply comm_imp; [| |apply comm_parse_inline]; [auto|exact J_K].
  - apply (comm_need K K G_head x (fun h s1 => parse_inline (strip_chars ($ "= ") h) (set_txt true (append_child (Nd (mkn KText (Some [])) []) (open_ (mkn KTableHead None) s1))))); [exact raise_K|]. intro h.
    apply (comm_comp K J K (fun s1 => set_txt true (append_child (Nd (mkn KText (Some [])) []) (open_ (mkn KTableHead None) s1))) (parse_inline (strip_chars ($ "= ") h))).
    + apply (comm_comp K K J (open_ (mkn KTableHead None)) (fun s1 => set_txt true (append_child (Nd (mkn KText (Some [])) []) s1))); [apply comm_open_K|].
      apply (comm_comp K (fun s => K s /\ cur_children s <> []) J (append_child (Nd (mkn KText (Some [])) [])) (set_txt true)); [apply comm_append|apply comm_txt_true].
    + eapply comm_imp; [| |apply comm_parse_inline]; [auto|exact J_K].
Qed.
Lemma comm_table : forall x, comm B B (table_repl x).
Proof.
  intro x. unfold table_repl. apply (comm_need B B G_table x (fun t s => _)); [exact raise_B|]. intro t. cbv zeta.
  apply (comm_comp B B B (upto [KTable; KDocument]) (fun s => let s1 := if kind_beq (cur_kind s) KTable then s else open_ (mkn KTable None) s in
    set_txt false (pop_to (List.length (stk s1)) (fold_left (cell_step (S (List.length (stk s1)))) (finditer cell_re (strip t)) (open_ (mkn KTableRow None) s1))))); [apply comm_upto_B|].
  apply (comm_comp B B B (fun s => if kind_beq (cur_kind s) KTable then s else open_ (mkn KTable None) s) (fun s1 =>
    set_txt false (pop_to (List.length (stk s1)) (fold_left (cell_step (S (List.length (stk s1)))) (finditer cell_re (strip t)) (open_ (mkn KTableRow None) s1))))).
  - apply comm_if; [intros s _; rewrite cur_kind_lift; reflexivity| |]; (eapply comm_imp; [| |first [exact (comm_id B)|apply comm_open_B]]); cbv beta; intros; tauto.
  - intros s Hs. change (stk (lift s)) with (lift_stk (stk s)). rewrite lift_length. revert Hs. generalize (List.length (stk s)). intros d Hs.
    apply (comm_comp B K B (open_ (mkn KTableRow None)) (fun s1 => set_txt false (pop_to d (fold_left (cell_step (S d)) (finditer cell_re (strip t)) s1)))); [| |exact Hs].
    + eapply comm_imp; [exact B_K| |apply comm_open_K]. auto.
    + apply (comm_comp K K B (fun s1 => fold_left (cell_step (S d)) (finditer cell_re (strip t)) s1) (fun s1 => set_txt false (pop_to d s1))); [apply comm_fold; apply comm_cell|].
      apply (comm_comp K K B (pop_to d) (set_txt false)); [apply comm_pop_to|apply comm_txt_false].
Qed.
Lemma comm_pre_block : forall x, comm B B (pre_block_repl x).
Proof.
  intro x. unfold pre_block_repl. apply (comm_comp B B B upto_block (fun s => need G_pre_block_text x s (fun t => set_txt false (append_child (Nd (mkn KPreBlock (Some (resub pre_escape_re remove_tilde t))) []) s)))); [exact comm_upto_block|].
  apply (comm_need B B G_pre_block_text x (fun t s => set_txt false (append_child (Nd (mkn KPreBlock (Some (resub pre_escape_re remove_tilde t))) []) s))); [exact raise_B|]. intro t.
  apply (comm_comp B K B (append_child (Nd (mkn KPreBlock (Some (resub pre_escape_re remove_tilde t))) [])) (set_txt false)); [|apply comm_txt_false]. eapply comm_imp; [exact B_K| |apply comm_append_K]. auto.
Qed.
Theorem lift_run : forall gs ms s, B s -> B (fold_left (replace_ gs block_handler) ms s) /\ fold_left (replace_ gs block_handler) ms (lift s) = lift (fold_left (replace_ gs block_handler) ms s).
Proof.
  intros gs ms. apply (comm_fold _ B (replace_ gs block_handler) ms). intro x. apply comm_replace. intros g y. destruct g; cbn [block_handler];
    first [apply comm_macro_block|apply comm_line|apply comm_head|apply comm_separator|apply comm_pre_block|apply comm_list|apply comm_table|apply comm_text|apply comm_raise; exact raise_B].
Qed.
End Lift.
