(** * Facts about MarkupTable *)
From Coq Require Import String List Arith NArith ZArith Bool Lia.
From Verif Require Import PyStr PyStrFacts MarkupTable HtmlTools HtmlToolsFacts Spec2.
Import ListNotations.
Open Scope N_scope.

(** ** filling *)
Lemma append_last_snoc : forall l r x, append_last (l ++ [r]) x = l ++ [r ++ [x]].
Proof.
  induction l as [|a l IH]; intros r x; [reflexivity|]. simpl app. cbn [append_last].
  destruct (l ++ [r]) eqn:E; [destruct l; discriminate|]. rewrite <- E, IH. reflexivity.
Qed.
Lemma put_cells : forall cs t l r, rows t = l ++ [r] ->
  fold_left put_cell cs t =
  mkt (head_prefix t) (auto_width t) (l ++ [r ++ map (cell_src (head_prefix t)) cs]) (has_header t || existsb is_th cs).
Proof.
  induction cs as [|c cs IH]; intros t l r H.
  - simpl. rewrite app_nil_r, orb_false_r, <- H. destruct t; reflexivity.
  - cbn [fold_left]. destruct c as [s|s]; cbn [put_cell].
    + rewrite (IH _ l (r ++ [s])).
      * cbn [head_prefix auto_width has_header rows add_td map cell_src existsb is_th orb].
        rewrite <- app_assoc. reflexivity.
      * unfold add_td. cbn [rows]. rewrite H. apply append_last_snoc.
    + rewrite (IH _ l (r ++ [head_prefix t ++ s])).
      * unfold add_th, add_td. cbn [head_prefix auto_width has_header rows map cell_src existsb is_th orb].
        rewrite <- app_assoc. rewrite orb_true_r. reflexivity.
      * unfold add_th, add_td. cbn [rows]. rewrite H. apply append_last_snoc.
Qed.
Lemma put_rows : forall rs t, fold_left put_row rs t =
  mkt (head_prefix t) (auto_width t) (rows t ++ map (map (cell_src (head_prefix t))) rs)
      (has_header t || existsb (existsb is_th) rs).
Proof.
  induction rs as [|r rs IH]; intro t.
  - simpl. rewrite app_nil_r, orb_false_r. destruct t; reflexivity.
  - cbn [fold_left]. rewrite IH. unfold put_row.
    rewrite (put_cells r (add_tr t) (rows t) []) by reflexivity.
    cbn [head_prefix auto_width has_header rows add_tr map existsb app].
    rewrite <- app_assoc, orb_assoc. reflexivity.
Qed.
Lemma filled_eq : forall hp aw rs, filled hp aw rs =
  mkt hp aw (map (map (cell_src hp)) rs) (existsb (existsb is_th) rs).
Proof. intros. unfold filled. rewrite put_rows. reflexivity. Qed.

(** ** joining and splitting *)
Lemma split_on_no : forall c s, ~ In c s -> split_on c s = [s].
Proof.
  induction s as [|d s IH]; intro H; [reflexivity|]. cbn [split_on].
  destruct (N.eqb_spec d c); [exfalso; apply H; left; auto|].
  rewrite IH; [reflexivity|]. intro; apply H; right; auto.
Qed.
Lemma split_on_app : forall c s t, ~ In c s -> split_on c (s ++ c :: t) = s :: split_on c t.
Proof.
  induction s as [|d s IH]; intros t H; cbn [app split_on].
  - rewrite N.eqb_refl. reflexivity.
  - destruct (N.eqb_spec d c); [exfalso; apply H; left; auto|].
    rewrite IH; [reflexivity|]. intro; apply H; right; auto.
Qed.
Lemma split_join : forall c l, l <> [] -> Forall (fun s => ~ In c s) l -> split_on c (join [c] l) = l.
Proof.
  intros c l Hne H. induction H as [|x l Hx Hl IH]; [congruence|].
  destruct l as [|y l].
  - apply split_on_no. exact Hx.
  - rewrite join_cons by discriminate. cbn [app]. rewrite split_on_app by exact Hx. rewrite IH by discriminate. reflexivity.
Qed.
Lemma removelast_snoc : forall {A} (l : list A) x, removelast (l ++ [x]) = l.
Proof. intros. rewrite removelast_app by discriminate. simpl. apply app_nil_r. Qed.

(** ** widths *)
Lemma zip_max_length : forall a b, List.length (zip_max a b) = Nat.min (List.length a) (List.length b).
Proof. induction a; intros [|y b]; simpl; auto. Qed.
Lemma widths_length : forall cells, List.length (widths cells) = shortest cells.
Proof.
  intros [|r t]; [reflexivity|]. unfold widths, shortest.
  assert (H : forall t w n, List.length w = n -> List.length (fold_left (fun w r => zip_max w (row_widths r)) t w) =
     fold_left (fun n (x : list str) => Nat.min n (List.length x)) t n).
  { clear. induction t as [|x t IH]; intros w n H; [exact H|]. cbn [fold_left]. apply IH.
    rewrite zip_max_length, H. unfold row_widths. rewrite map_length. reflexivity. }
  apply H. unfold row_widths. apply map_length.
Qed.
Definition fits (row : list str) (ws : list nat) : Prop :=
  Forall (fun cw : str * nat => (List.length (fst cw) <= snd cw)%nat) (zip row ws).
Lemma fits_max_l : forall row w x, fits row w -> fits row (zip_max w x).
Proof.
  unfold fits. induction row as [|c row IH]; intros w x H; [constructor|].
  destruct w as [|a w]; [destruct x; constructor|]. destruct x as [|b x]; [constructor|].
  cbn [zip_max zip] in *. inversion H; subst. apply Forall_cons; [|apply IH; assumption]. simpl in *. lia.
Qed.
Lemma fits_max_r : forall row w, fits row (zip_max w (row_widths row)).
Proof.
  unfold fits. induction row as [|c row IH]; intros w; [constructor|].
  destruct w as [|a w]; [constructor|]. cbn [zip_max zip row_widths map]. apply Forall_cons; [|apply IH]. cbn [fst snd]. lia.
Qed.
Lemma fits_self : forall row, fits row (row_widths row).
Proof. unfold fits. induction row; [constructor|]. apply Forall_cons; [cbn [fst snd]; lia|assumption]. Qed.
Lemma widths_fit : forall cells row, In row cells -> fits row (widths cells).
Proof.
  intros [|r t] row H; [destruct H|]. unfold widths.
  assert (HA : forall t w, fits row w -> fits row (fold_left (fun w r => zip_max w (row_widths r)) t w)).
  { clear. induction t as [|x t IH]; intros w H; [exact H|]. cbn [fold_left]. apply IH, fits_max_l, H. }
  destruct H as [<-|H]; [apply HA, fits_self|].
  revert H. generalize (row_widths r). induction t as [|x t IH]; intros w H; [destruct H|].
  cbn [fold_left]. destruct H as [<-|H]; [apply HA, fits_max_r|apply IH, H].
Qed.
Lemma shortest_le : forall {A} (rs : list (list A)) r, In r rs -> (shortest rs <= List.length r)%nat.
Proof.
  intros A [|r0 t] r H; [destruct H|]. unfold shortest.
  assert (HA : forall t n, (fold_left (fun n (x : list A) => Nat.min n (List.length x)) t n <= n)%nat).
  { clear. induction t as [|x t IH]; intros n; [apply le_n|]. cbn [fold_left]. specialize (IH (Nat.min n (List.length x))). lia. }
  destruct H as [<-|H]; [apply HA|].
  revert H. generalize (List.length r0). induction t as [|x t IH]; intros n H; [destruct H|].
  cbn [fold_left]. destruct H as [<-|H]; [|apply IH, H]. specialize (HA t (Nat.min n (List.length x))). lia.
Qed.
Lemma shortest_map : forall {A B} (f : A -> B) rs, shortest (map (map f) rs) = shortest rs.
Proof.
  intros A B f [|r t]; [reflexivity|]. unfold shortest. cbn [map]. rewrite map_length.
  generalize (List.length r). induction t as [|x t IH]; intro n; [reflexivity|]. cbn [fold_left map]. rewrite map_length. apply IH.
Qed.
Lemma shortest_all : forall {A} (rs : list (list A)) n, rs <> [] -> Forall (fun r => List.length r = n) rs -> shortest rs = n.
Proof.
  intros A [|r t] n Hne H; [congruence|]. inversion H as [|? ? Hr Ht]; subst. unfold shortest. clear H Hne.
  induction Ht as [|x t Hx Ht IH]; [reflexivity|]. cbn [fold_left]. rewrite Hx, Nat.min_id. exact IH.
Qed.

Lemma ljust_length : forall s w, (List.length s <= w)%nat -> List.length (ljust s w) = w.
Proof. intros. unfold ljust. rewrite app_length, repeat_length. lia. Qed.
Lemma padded_widths : forall row ws, fits row ws -> (List.length ws <= List.length row)%nat ->
  map (@List.length N) (map (fun cw : str * nat => ljust (fst cw) (snd cw)) (zip row ws)) = ws.
Proof.
  unfold fits. induction row as [|c row IH]; intros [|w ws] H Hl; simpl in Hl; try lia; try reflexivity.
  inversion H; subst. cbn [zip map fst snd] in *. rewrite ljust_length by assumption. rewrite IH; auto. lia.
Qed.
Lemma zip_fst : forall {A B} (a : list A) (b : list B), (List.length b <= List.length a)%nat -> map fst (zip a b) = firstn (List.length b) a.
Proof. induction a; intros [|y b] H; simpl in *; try lia; auto. rewrite IHa by lia. reflexivity. Qed.

(** ** cells *)
Lemma spaces_repeat : forall n, forallb is_space (repeat 32 n) = true.
Proof. induction n; [reflexivity|]. simpl. exact IHn. Qed.
Lemma strip_pad : forall a s b, forallb is_space a = true -> forallb is_space b = true -> strip (a ++ strip s ++ b) = strip s.
Proof.
  intros a s b Ha Hb. unfold strip at 1, strip_by, lstrip_by. rewrite drop_while_app by exact Ha.
  destruct (strip s) as [|c t] eqn:E.
  - simpl. rewrite (drop_while_all _ _ Hb). reflexivity.
  - cbn [app]. rewrite drop_while_none by (eapply strip_by_head; exact E).
    change (c :: t ++ b) with ((c :: t) ++ b). rewrite rstrip_app_all by exact Hb.
    destruct (@exists_last _ (c :: t)) as (u & d & Ed); [discriminate|]. rewrite Ed in *.
    apply rstrip_keep. apply (strip_by_last is_space s d (rev u)).
    change (strip_by is_space s) with (strip s). rewrite E, rev_app_distr. reflexivity.
Qed.
Lemma strip_fmt : forall hp c w, strip (ljust (fmt_cell hp c) w) = strip c.
Proof.
  intros hp c w. unfold fmt_cell, ljust. destruct (strip c) as [|x t] eqn:E.
  - simpl. apply (strip_pad [] [] _ eq_refl (spaces_repeat _)).
  - rewrite <- E. destruct (truthy hp && startswith hp (strip c)).
    + rewrite <- app_assoc. apply (strip_pad []); [reflexivity|]. apply (spaces_repeat (S _)).
    + rewrite <- !app_assoc. apply strip_pad; [reflexivity|]. apply (spaces_repeat (S _)).
Qed.
Lemma In_repeat : forall (c d : N) n, In c (repeat d n) -> c = d.
Proof. induction n; simpl; [tauto|]. intros [H|H]; auto. Qed.
Lemma fmt_clean : forall hp c w, clean c -> clean (ljust (fmt_cell hp c) w).
Proof.
  intros hp c w [H1 H2].
  assert (G : forall x, In x (ljust (fmt_cell hp c) w) -> x = 32 \/ In x c).
  { intros x H. unfold ljust in H. apply in_app_iff in H as [H|H].
    - unfold fmt_cell in H. destruct (strip c) as [|y t] eqn:E; [destruct H|]. rewrite <- E in H.
      destruct (truthy hp && startswith hp (strip c)); rewrite ?in_app_iff in H; simpl in H;
        intuition (auto using strip_In).
    - apply In_repeat in H. auto. }
  split; intro H; apply G in H as [H|H]; try discriminate; auto.
Qed.
Lemma src_clean : forall hp c, clean hp -> clean_cell c -> clean (cell_src hp c).
Proof.
  intros hp [s|s] [H1 H2] [H3 H4]; simpl; [split; assumption|].
  split; rewrite in_app_iff; tauto.
Qed.

(** ** one line *)
Definition bar_line (cells : list str) : str := $ "|" ++ join ($ "|") cells ++ $ "|".
Lemma join_snoc : forall sep l x, l <> [] -> join sep (l ++ [x]) = join sep l ++ sep ++ x.
Proof.
  intros sep. induction l as [|y l IH]; intros x H; [congruence|]. destruct l as [|z l].
  - reflexivity.
  - cbn [app]. rewrite join_cons by discriminate. change (z :: l ++ [x]) with ((z :: l) ++ [x]).
    rewrite IH by discriminate. rewrite (join_cons sep y (z :: l)) by discriminate. rewrite <- !app_assoc. reflexivity.
Qed.
Lemma bar_line_join : forall cells, cells <> [] -> bar_line cells = join [124] ([[]] ++ cells ++ [[]]).
Proof.
  intros cells H. unfold bar_line. cbn [app].
  rewrite join_cons by (destruct cells; discriminate). rewrite join_snoc by exact H.
  rewrite app_nil_r. reflexivity.
Qed.
Lemma bar_line_cells : forall cells, cells <> [] -> Forall (fun s => ~ In 124 s) cells -> cells_of (bar_line cells) = cells.
Proof.
  intros cells H Hc. rewrite bar_line_join by exact H. unfold cells_of. rewrite split_join.
  - cbn [app tl]. apply removelast_snoc.
  - discriminate.
  - apply Forall_cons; [tauto|]. apply Forall_app. split; [exact Hc|]. apply Forall_cons; [simpl; tauto|constructor].
Qed.
Fixpoint total (ws : list nat) : nat := match ws with [] => 0 | w :: t => S (w + total t) end.
Lemma join_length : forall (c : N) (l : list str), l <> [] -> S (List.length (join [c] l)) = total (map (@List.length N) l).
Proof.
  intros c l. induction l as [|x l IH]; intro H; [congruence|]. destruct l as [|y l].
  - simpl. lia.
  - rewrite join_cons by discriminate. rewrite !app_length. cbn [map total] in *.
    specialize (IH ltac:(discriminate)). cbn [List.length]. lia.
Qed.
Lemma bar_line_length : forall cells, cells <> [] -> List.length (bar_line cells) = S (total (map (@List.length N) cells)).
Proof.
  intros. rewrite <- (join_length 124) by assumption. unfold bar_line. rewrite !app_length. cbn [List.length]. 
  change ($ "|") with [124]. cbn [List.length]. lia.
Qed.
Lemma bar_line_newline : forall cells, Forall (fun s => ~ In 10 s) cells -> ~ In 10 (bar_line cells).
Proof.
  intros cells H Hin. unfold bar_line in Hin. rewrite !in_app_iff in Hin.
  destruct Hin as [[Hin|[]]|[Hin|[Hin|[]]]]; try discriminate.
  apply join_In in Hin as [[Hin|[]]|(x & Hx & Hin)]; [discriminate|].
  rewrite Forall_forall in H. exact (H x Hx Hin).
Qed.

(** the cells of a row, padded *)
Definition padded (hp : str) (ws : list nat) (row : list str) : list str :=
  map (fun cw : str * nat => ljust (fst cw) (snd cw)) (zip (map (fmt_cell hp) row) ws).
Lemma table_line_bar : forall hp ws row, table_line ws (map (fmt_cell hp) row) = bar_line (padded hp ws row).
Proof. reflexivity. Qed.
Lemma padded_strip : forall hp ws row, (List.length ws <= List.length row)%nat ->
  map strip (padded hp ws row) = map strip (firstn (List.length ws) row).
Proof.
  unfold padded. intro hp. induction ws as [|w ws IH]; intros [|c row] H; simpl in H; try lia; try reflexivity.
  cbn [zip map List.length firstn fst snd]. rewrite IH by lia. rewrite strip_fmt. reflexivity.
Qed.
Lemma padded_clean : forall hp ws row, Forall clean row -> Forall clean (padded hp ws row).
Proof.
  unfold padded. intros hp ws row H. revert ws. induction H as [|c row Hc Hr IH]; intros [|w ws]; try constructor.
  - apply fmt_clean. exact Hc.
  - apply IH.
Qed.

(** the table as formatted by the code *)
Definition fmt_rows (hp : str) (rs : list (list str)) : list (list str) := map (map (fmt_cell hp)) rs.
Section Table.
  Variables (hp : str) (rs : list (list str)).
  Hypothesis Hclean : Forall (Forall clean) rs.
  Let ws := widths (fmt_rows hp rs).
  Lemma ws_length : List.length ws = shortest rs.
  Proof. unfold ws. rewrite widths_length. apply shortest_map. Qed.
  Lemma row_padded : forall row, In row rs ->
    map (@List.length N) (padded hp ws row) = ws /\
    map strip (padded hp ws row) = map strip (firstn (shortest rs) row) /\
    Forall clean (padded hp ws row).
  Proof.
    intros row H.
    assert (Hl : (List.length ws <= List.length row)%nat) by (rewrite ws_length; apply shortest_le; exact H).
    split; [|split].
    - apply padded_widths; [|rewrite map_length; exact Hl]. apply widths_fit. apply in_map. exact H.
    - rewrite <- ws_length. apply padded_strip. exact Hl.
    - apply padded_clean. rewrite Forall_forall in Hclean. auto.
  Qed.
  Lemma padded_ne : forall row, In row rs -> (0 < shortest rs)%nat -> padded hp ws row <> [].
  Proof.
    intros row H H0 E. destruct (row_padded row H) as (E1 & _). rewrite E in E1. simpl in E1.
    pose proof ws_length. rewrite <- E1 in H1. simpl in H1. lia.
  Qed.
  Definition lines_m := map (fun row => bar_line (padded hp ws row)) rs.
  Lemma lines_m_newline : Forall (fun s => ~ In 10 s) lines_m.
  Proof.
    apply Forall_forall. intros l H. apply in_map_iff in H as (row & <- & H).
    apply bar_line_newline. destruct (row_padded row H) as (_ & _ & C).
    rewrite Forall_forall in *. intros x Hx. apply C. exact Hx.
  Qed.
  Lemma lines_m_cells : (0 < shortest rs)%nat ->
    map (fun l => map strip (cells_of l)) lines_m = map (fun r => map strip (firstn (shortest rs) r)) rs /\
    Forall (fun l => List.length l = S (total ws) /\ map (@List.length N) (cells_of l) = ws) lines_m.
  Proof.
    intro H0. split.
    - unfold lines_m. rewrite map_map. apply map_ext_in. intros row H.
      destruct (row_padded row H) as (_ & E & C).
      rewrite bar_line_cells; [exact E|apply padded_ne; assumption|].
      rewrite Forall_forall in *. intros x Hx. apply C. exact Hx.
    - apply Forall_forall. intros l H. apply in_map_iff in H as (row & <- & H).
      destruct (row_padded row H) as (E & _ & C).
      rewrite bar_line_length by (apply padded_ne; assumption). rewrite E. split; [reflexivity|].
      rewrite bar_line_cells; [exact E|apply padded_ne; assumption|].
      rewrite Forall_forall in *. intros x Hx. apply C. exact Hx.
  Qed.
End Table.

Lemma rows_clean : forall hp rs, clean hp -> Forall (Forall clean_cell) rs -> Forall (Forall clean) (map (map (cell_src hp)) rs).
Proof.
  intros hp rs Hh H. induction H as [|r rs Hr Hrs IH]; [constructor|]. cbn [map]. apply Forall_cons; [|exact IH].
  induction Hr; [constructor|]. cbn [map]. apply Forall_cons; [apply src_clean; assumption|assumption].
Qed.

(** ** the creole / textile table *)
Theorem table_cells : forall hp rs, rs <> [] -> clean hp -> Forall (Forall clean_cell) rs -> (0 < shortest rs)%nat ->
  let lines := lines_of (get_table_markup (filled hp true rs)) in
  map (fun l => map strip (cells_of l)) lines =
  map (fun r => map (fun c => strip (cell_src hp c)) (firstn (shortest rs) r)) rs /\
  exists len ws, Forall (fun l => List.length l = len /\ map (@List.length N) (cells_of l) = ws) lines.
Proof.
  intros hp rs Hne Hh Hc H0. pose proof (rows_clean hp rs Hh Hc) as Hr.
  rewrite filled_eq. unfold get_table_markup, preformat. cbn [auto_width head_prefix MarkupTable.rows].
  set (srcs := map (map (cell_src hp)) rs) in *.
  assert (El : map (table_line (widths (map (map (fmt_cell hp)) srcs))) (map (map (fmt_cell hp)) srcs) = lines_m hp srcs).
  { unfold lines_m. rewrite map_map. apply map_ext. intro row. apply table_line_bar. }
  rewrite El. unfold lines_of. rewrite split_join.
  - assert (H0' : (0 < shortest srcs)%nat) by (unfold srcs; rewrite shortest_map; exact H0).
    destruct (lines_m_cells hp srcs Hr H0') as [E F]. split.
    + rewrite E. unfold srcs. rewrite shortest_map, map_map. apply map_ext. intro r.
      rewrite firstn_map, map_map. reflexivity.
    + eauto.
  - unfold lines_m, srcs. destruct rs; [congruence|discriminate].
  - apply lines_m_newline. exact Hr.
Qed.
Theorem table_no_width : forall hp rs, rs <> [] -> clean hp -> Forall (Forall clean_cell) rs -> (0 < shortest rs)%nat ->
  map cells_of (lines_of (get_table_markup (filled hp false rs))) = map (map (cell_src hp)) rs.
Proof.
  intros hp rs Hne Hh Hc H0. pose proof (rows_clean hp rs Hh Hc) as Hr.
  rewrite filled_eq. unfold get_table_markup. cbn [auto_width MarkupTable.rows].
  assert (H0' : (0 < shortest (map (map (cell_src hp)) rs))%nat) by (rewrite shortest_map; exact H0).
  assert (Hne' : map (map (cell_src hp)) rs <> []) by (destruct rs; [congruence|discriminate]).
  revert Hr H0' Hne'. generalize (map (map (cell_src hp)) rs) as srcs. clear. intros srcs Hr H0 Hne.
  change (fun row => $ "|" ++ join ($ "|") row ++ $ "|") with bar_line.
  unfold lines_of. rewrite split_join.
  - rewrite map_map. rewrite <- (map_id srcs) at 2. apply map_ext_in. intros row Hin.
    apply bar_line_cells.
    + apply shortest_le in Hin. destruct row; [simpl in Hin; lia|discriminate].
    + rewrite Forall_forall in Hr. specialize (Hr row Hin). rewrite Forall_forall in *. intros x Hx. apply (Hr x Hx).
  - destruct srcs; [congruence|discriminate].
  - apply Forall_forall. intros l Hl. apply in_map_iff in Hl as (row & <- & Hin). apply bar_line_newline.
    rewrite Forall_forall in Hr. specialize (Hr row Hin). rewrite Forall_forall in *. intros x Hx. apply (Hr x Hx).
Qed.
(** a row without cells empties the whole table *)
Theorem table_empty_row : forall hp rs, rs <> [] -> clean hp -> Forall (Forall clean_cell) rs -> shortest rs = 0%nat ->
  lines_of (get_table_markup (filled hp true rs)) = map (fun _ => $ "||") rs.
Proof.
  intros hp rs Hne Hh Hc H0. pose proof (rows_clean hp rs Hh Hc) as Hr.
  rewrite filled_eq. unfold get_table_markup, preformat. cbn [auto_width head_prefix MarkupTable.rows].
  assert (Ew : widths (map (map (fmt_cell hp)) (map (map (cell_src hp)) rs)) = []).
  { pose proof (widths_length (map (map (fmt_cell hp)) (map (map (cell_src hp)) rs))) as E.
    rewrite !shortest_map, H0 in E. destruct (widths _); [reflexivity|discriminate]. }
  rewrite Ew. rewrite !map_map. unfold lines_of. 
  assert (E : map (fun x => table_line [] (map (fmt_cell hp) (map (cell_src hp) x))) rs = map (fun _ => $ "||") rs).
  { apply map_ext. intro r. unfold table_line.
    assert (Z : forall l : list str, @zip _ nat l [] = []) by (destruct l; reflexivity). rewrite Z. reflexivity. }
  rewrite E. apply split_join.
  - destruct rs; [congruence|discriminate].
  - apply Forall_forall. intros l Hl. apply in_map_iff in Hl as (row & <- & Hin). simpl. intuition discriminate.
Qed.

(** ** the reStructuredText grid *)
Lemma rest_sep_grid : forall c ws, ws <> [] -> rest_sep c ws = grid c ws.
Proof.
  intros c ws H. unfold rest_sep, grid. f_equal. induction ws as [|w ws IH]; [congruence|].
  destruct ws as [|v ws]; [simpl; rewrite app_nil_r; reflexivity|].
  specialize (IH ltac:(discriminate)). cbn [map] in *.
  rewrite join_cons by discriminate. rewrite <- !app_assoc. etransitivity; [do 2 apply f_equal; exact IH|].
  cbn [flat_map]. rewrite <- !app_assoc. reflexivity.
Qed.
Lemma grid_length : forall c ws, List.length (grid c ws) = S (total ws).
Proof.
  intros c ws. unfold grid. cbn [app List.length]. f_equal. induction ws as [|w ws IH]; [reflexivity|].
  cbn [flat_map total]. rewrite !app_length, repeat_length, IH. simpl. lia.
Qed.
Lemma grid_newline : forall c ws, c <> 10 -> ~ In 10 (grid c ws).
Proof.
  intros c ws Hc H. unfold grid in H. cbn [app] in H. destruct H as [H|H]; [discriminate|].
  apply in_flat_map in H as (w & _ & H). apply in_app_iff in H as [H|[H|[]]]; [|discriminate].
  apply In_repeat in H. congruence.
Qed.
Fixpoint weave (hdr : bool) (no : nat) (ws : list nat) (ls : list str) : list str :=
  match ls with
  | [] => [grid 45 ws]
  | l :: t => (if Nat.eqb no 1 && hdr then grid 61 ws else grid 45 ws) :: l :: weave hdr (S no) ws t
  end.
Lemma rest_lines_weave : forall hdr ws hp rs no, ws <> [] ->
  rest_lines hdr no ws (fmt_rows hp rs) ++ [rest_sep 45 ws] = weave hdr no ws (map (fun r => bar_line (padded hp ws r)) rs).
Proof.
  intros hdr ws hp rs no H. revert no. induction rs as [|r rs IH]; intro no.
  - simpl. rewrite rest_sep_grid by exact H. reflexivity.
  - cbn [fmt_rows map rest_lines weave app]. rewrite !rest_sep_grid by exact H.
    f_equal. f_equal. rewrite <- IH, rest_sep_grid by exact H. reflexivity.
Qed.
Lemma weave_length : forall hdr ws ls no, List.length (weave hdr no ws ls) = (2 * List.length ls + 1)%nat.
Proof. induction ls as [|l ls IH]; intro no; [reflexivity|]. cbn [weave List.length]. rewrite IH. lia. Qed.
Lemma weave_even : forall hdr ws ls no i, (i <= List.length ls)%nat ->
  nth_error (weave hdr no ws ls) (2 * i) =
  Some (grid (if Nat.eqb (no + i) 1 && hdr && Nat.ltb i (List.length ls) then 61 else 45) ws).
Proof.
  induction ls as [|l ls IH]; intros no i Hi.
  - simpl in Hi. assert (i = 0)%nat by lia. subst. simpl. rewrite andb_false_r. reflexivity.
  - destruct i as [|i].
    + simpl. rewrite Nat.add_0_r. rewrite andb_true_r. destruct (Nat.eqb no 1 && hdr); reflexivity.
    + replace (2 * S i)%nat with (S (S (2 * i))) by lia. cbn [weave nth_error].
      rewrite IH by (simpl in Hi; lia). replace (S no + i)%nat with (no + S i)%nat by lia. reflexivity.
Qed.
Lemma weave_odd : forall hdr ws ls no i, nth_error (weave hdr no ws ls) (2 * i + 1) = nth_error ls i.
Proof.
  induction ls as [|l ls IH]; intros no i.
  - destruct i; [reflexivity|]. replace (2 * S i + 1)%nat with (S (S (2 * i + 1))) by lia. destruct i; reflexivity.
  - destruct i as [|i]; [reflexivity|]. replace (2 * S i + 1)%nat with (S (S (2 * i + 1))) by lia.
    cbn [weave nth_error]. apply IH.
Qed.
Lemma weave_Forall : forall (P : str -> Prop) hdr ws ls no, P (grid 45 ws) -> P (grid 61 ws) -> Forall P ls -> Forall P (weave hdr no ws ls).
Proof.
  intros P hdr ws ls no H1 H2 H. revert no. induction H as [|l ls Hl Hls IH]; intro no; cbn [weave].
  - apply Forall_cons; [exact H1|constructor].
  - apply Forall_cons; [destruct (Nat.eqb no 1 && hdr); assumption|]. apply Forall_cons; [exact Hl|apply IH].
Qed.
Theorem rest_table : forall hp rs, rs <> [] -> clean hp -> Forall (Forall clean_cell) rs -> (0 < shortest rs)%nat ->
  let lines := lines_of (get_rest_table (filled hp true rs)) in
  exists ws, List.length ws = shortest rs /\
    List.length lines = (2 * List.length rs + 1)%nat /\
    (exists len, Forall (fun l => List.length l = len) lines) /\
    (forall i, (i <= List.length rs)%nat -> nth_error lines (2 * i) =
       Some (grid (if Nat.eqb i 1 && existsb (existsb is_th) rs && Nat.ltb i (List.length rs) then 61 else 45) ws)) /\
    (forall i r, nth_error rs i = Some r -> exists l, nth_error lines (2 * i + 1) = Some l /\
       map (@List.length N) (cells_of l) = ws /\
       map strip (cells_of l) = map (fun c => strip (cell_src hp c)) (firstn (shortest rs) r)).
Proof.
  intros hp rs Hne Hh Hc H0. pose proof (rows_clean hp rs Hh Hc) as Hr.
  rewrite filled_eq. unfold get_rest_table, preformat. cbn [auto_width head_prefix MarkupTable.rows has_header].
  set (srcs := map (map (cell_src hp)) rs) in *.
  fold (fmt_rows hp srcs). set (ws := widths (fmt_rows hp srcs)).
  assert (H0' : (0 < shortest srcs)%nat) by (unfold srcs; rewrite shortest_map; exact H0).
  assert (Hw : List.length ws = shortest rs).
  { unfold ws. rewrite ws_length. unfold srcs. apply shortest_map. }
  assert (Hwne : ws <> []) by (intro E; rewrite E in Hw; simpl in Hw; lia).
  rewrite rest_lines_weave by exact Hwne.
  change (map (fun r => bar_line (padded hp ws r)) srcs) with (lines_m hp srcs).
  destruct (lines_m_cells hp srcs Hr H0') as [E F]. fold ws in F.
  assert (Hlen : List.length (lines_m hp srcs) = List.length rs) by (unfold lines_m, srcs; rewrite !map_length; reflexivity).
  unfold lines_of. rewrite split_join.
  2:{ cbv zeta. intro Ee. apply (f_equal (@List.length str)) in Ee. rewrite weave_length in Ee. simpl in Ee. lia. }
  2:{ apply weave_Forall; try (apply grid_newline; discriminate). apply lines_m_newline. exact Hr. }
  exists ws. split; [exact Hw|]. split; [rewrite weave_length, Hlen; reflexivity|]. split; [|split].
  - exists (S (total ws)). apply weave_Forall; try apply grid_length.
    eapply Forall_impl; [|exact F]. simpl. tauto.
  - intros i Hi. rewrite weave_even by (rewrite Hlen; exact Hi). rewrite Hlen. reflexivity.
  - intros i r Hi. rewrite weave_odd.
    assert (Hs : nth_error srcs i = Some (map (cell_src hp) r)) by (unfold srcs; apply map_nth_error; exact Hi).
    assert (Hl : nth_error (lines_m hp srcs) i = Some (bar_line (padded hp ws (map (cell_src hp) r)))).
    { unfold lines_m. fold ws. apply (map_nth_error (fun row => bar_line (padded hp ws row))). exact Hs. }
    eexists. split; [exact Hl|]. 
    pose proof (nth_error_In _ _ Hl) as Hin. rewrite Forall_forall in F. destruct (F _ Hin) as [_ F2].
    split; [exact F2|].
    apply (f_equal (fun l => nth_error l i)) in E.
    rewrite (map_nth_error (fun l => map strip (cells_of l)) _ _ Hl) in E.
    rewrite (map_nth_error (fun r => map strip (firstn (shortest srcs) r)) _ _ Hs) in E. inversion E as [E'].
    rewrite E'. unfold srcs. rewrite shortest_map, firstn_map, map_map. reflexivity.
Qed.

(** ** the markdown table *)
Lemma md_sep_bar : forall ws, Forall (fun w => (2 <= w)%nat) ws -> ws <> [] ->
  md_sep ws = bar_line (map (fun w => [32] ++ repeat 45 (w - 2) ++ [32]) ws).
Proof.
  intros ws H Hne. unfold md_sep, bar_line.
  assert (E : forall ws, ws <> [] -> [32] ++ join ($ " | ") (map (fun w => repeat 45 (w - 2)) ws) ++ [32] =
     join ($ "|") (map (fun w => [32] ++ repeat 45 (w - 2) ++ [32]) ws)).
  { clear. induction ws as [|w ws IH]; intro H; [congruence|]. destruct ws as [|v ws]; [reflexivity|].
    cbn [map] in *. rewrite (join_cons _ (repeat 45 (w - 2))) by discriminate.
    rewrite (join_cons _ ([32] ++ repeat 45 (w - 2) ++ [32])) by discriminate.
    rewrite <- IH by discriminate. rewrite <- !app_assoc. reflexivity. }
  rewrite <- E by exact Hne. rewrite <- !app_assoc. reflexivity.
Qed.
Lemma max_ge_r : forall cells j w, nth_error (widths cells) j = Some w ->
  forall r c, In r cells -> nth_error r j = Some c -> (List.length c <= w)%nat.
Proof.
  intros cells j w Hw r c Hr Hc. pose proof (widths_fit cells r Hr) as F. unfold fits in F.
  rewrite Forall_forall in F. apply (F (c, w)). revert r c Hc Hw Hr F. generalize (widths cells). clear.
  intros l r c Hc Hw _ _. revert r l Hc Hw. induction j; intros [|x r] [|y l] Hc Hw; try discriminate.
  - simpl in *. inversion Hc; inversion Hw; subst. left. reflexivity.
  - cbn [zip]. right. apply IHj; assumption.
Qed.

Lemma md_lines_tail : forall hdr ws cells no, (2 <= no)%nat -> md_lines hdr no ws cells = map (table_line ws) cells.
Proof.
  induction cells as [|r cells IH]; intros no H; [reflexivity|]. cbn [md_lines map].
  destruct (Nat.eqb_spec no 1); [lia|]. cbn [andb app]. rewrite IH by lia. reflexivity.
Qed.
Lemma md_lines_eq : forall hdr ws r cells, md_lines hdr 0 ws (r :: cells) =
  table_line ws r :: (if hdr && negb (is_nil cells) then [md_sep ws] else []) ++ map (table_line ws) cells.
Proof.
  intros. cbn [md_lines Nat.eqb andb app]. f_equal. destruct cells as [|r2 cells]; [rewrite andb_false_r; reflexivity|].
  cbn [md_lines Nat.eqb andb app is_nil negb]. rewrite andb_true_r. rewrite md_lines_tail by lia. reflexivity.
Qed.
Lemma fmt_width : forall c, strip c <> [] -> (3 <= List.length (fmt_cell [] c))%nat.
Proof.
  intros c H. unfold fmt_cell. destruct (strip c) as [|x t]; [congruence|]. cbn [truthy is_nil negb andb].
  rewrite !app_length. simpl. lia.
Qed.
(** every column shows something *)
Theorem markdown_table : forall r0 rs, Forall (Forall clean_cell) (r0 :: rs) -> (0 < shortest (r0 :: rs))%nat ->
  (forall j, (j < shortest (r0 :: rs))%nat -> exists r c, In r (r0 :: rs) /\ nth_error r j = Some c /\ strip (cell_src [] c) <> []) ->
  let lines := lines_of (get_markdown_table (filled [] true (r0 :: rs))) in
  exists ws first sep others,
    lines = first :: (if existsb (existsb is_th) (r0 :: rs) && negb (is_nil rs) then [sep] else []) ++ others /\
    map (fun l => map strip (cells_of l)) (first :: others) =
    map (fun r => map (fun c => strip (cell_src [] c)) (firstn (shortest (r0 :: rs)) r)) (r0 :: rs) /\
    (exists len, Forall (fun l => List.length l = len) (first :: sep :: others)) /\
    Forall (fun l => map (@List.length N) (cells_of l) = ws) (first :: sep :: others) /\
    List.length ws = shortest (r0 :: rs) /\
    Forall (fun c => exists n, strip c = repeat 45 (S n)) (cells_of sep).
Proof.
  intros r0 rs Hc H0 Hcol. 
  assert (Hh : clean []) by (split; intros []).
  pose proof (rows_clean [] _ Hh Hc) as Hr.
  rewrite filled_eq. unfold get_markdown_table, preformat. cbn [auto_width head_prefix MarkupTable.rows has_header].
  set (srcs := map (map (cell_src [])) (r0 :: rs)) in *.
  fold (fmt_rows [] srcs). set (ws := widths (fmt_rows [] srcs)).
  assert (H0' : (0 < shortest srcs)%nat) by (unfold srcs; rewrite shortest_map; exact H0).
  assert (Hw : List.length ws = shortest (r0 :: rs)).
  { unfold ws. rewrite ws_length. unfold srcs. apply shortest_map. }
  assert (Hwne : ws <> []) by (intro E; rewrite E in Hw; rewrite <- Hw in H0; inversion H0).
  assert (Hw3 : Forall (fun w => (3 <= w)%nat) ws).
  { apply Forall_forall. intros w Hin. apply In_nth_error in Hin as (j & Hj).
    assert (Hlt : (j < shortest (r0 :: rs))%nat) by (rewrite <- Hw; apply nth_error_Some; congruence).
    destruct (Hcol j Hlt) as (r & c & Hin & Hjr & Hs).
    pose proof (max_ge_r _ _ _ Hj (map (fmt_cell []) (map (cell_src []) r)) (fmt_cell [] (cell_src [] c))) as G.
    etransitivity; [apply fmt_width; exact Hs|]. apply G.
    - unfold fmt_rows, srcs. apply in_map, in_map. exact Hin.
    - apply map_nth_error, map_nth_error. exact Hjr. }
  assert (Hw2 : Forall (fun w => (2 <= w)%nat) ws) by (eapply Forall_impl; [|exact Hw3]; simpl; intros; lia).
  set (sepcells := map (fun w => [32] ++ repeat 45 (w - 2) ++ [32]) ws).
  assert (Hsn : sepcells <> []) by (unfold sepcells; destruct ws; [congruence|discriminate]).
  assert (Hsc : Forall clean sepcells).
  { apply Forall_forall. intros c Hin. unfold sepcells in Hin. apply in_map_iff in Hin as (w & <- & _).
    split; rewrite !in_app_iff; intros [[?|[]]|[Hx|[?|[]]]]; try discriminate; apply In_repeat in Hx; discriminate. }
  assert (Hsl : map (@List.length N) sepcells = ws).
  { unfold sepcells. rewrite map_map. rewrite <- (map_id ws) at 2. apply map_ext_in. intros w Hin.
    rewrite Forall_forall in Hw2. specialize (Hw2 w Hin). rewrite !app_length, repeat_length. simpl. lia. }
  assert (Hs1 : Forall (fun s => ~ In 124 s) sepcells) by (eapply Forall_impl; [|exact Hsc]; intros s [? ?]; assumption).
  assert (Hs2 : Forall (fun s => ~ In 10 s) sepcells) by (eapply Forall_impl; [|exact Hsc]; intros s [? ?]; assumption).
  destruct (lines_m_cells [] srcs Hr H0') as [E F]. fold ws in F.
  pose proof (lines_m_newline [] srcs Hr) as Hnl.
  assert (Elm : lines_m [] srcs = bar_line (padded [] ws (map (cell_src []) r0)) ::
                map (fun row => bar_line (padded [] ws row)) (map (map (cell_src [])) rs)) by reflexivity.
  set (first := bar_line (padded [] ws (map (cell_src []) r0))) in *.
  set (others := map (fun row => bar_line (padded [] ws row)) (map (map (cell_src [])) rs)) in *.
  rewrite Elm in *.
  exists ws, first, (md_sep ws), others.
  assert (Esep : md_sep ws = bar_line sepcells) by (apply md_sep_bar; assumption).
  split; [|split; [|split; [|split; [|split]]]].
  - unfold lines_of. change (fmt_rows [] srcs) with (map (fmt_cell []) (map (cell_src []) r0) :: fmt_rows [] (map (map (cell_src [])) rs)).
    rewrite md_lines_eq.
    assert (Eo : map (table_line ws) (fmt_rows [] (map (map (cell_src [])) rs)) = others).
    { unfold others, fmt_rows. rewrite map_map. apply map_ext. intro. apply table_line_bar. }
    rewrite Eo, table_line_bar. fold first.
    assert (En : is_nil (fmt_rows [] (map (map (cell_src [])) rs)) = is_nil rs) by (destruct rs; reflexivity).
    rewrite En. apply split_join; [discriminate|].
    inversion Hnl; subst. apply Forall_cons; [assumption|]. apply Forall_app. split; [|assumption].
    destruct (_ && _); [|constructor]. apply Forall_cons; [|constructor]. rewrite Esep. apply bar_line_newline. exact Hs2.
  - rewrite E. unfold srcs. rewrite shortest_map, map_map. apply map_ext. intro r.
    rewrite firstn_map, map_map. reflexivity.
  - exists (S (total ws)). inversion F; subst. apply Forall_cons; [tauto|]. apply Forall_cons.
    + rewrite Esep, bar_line_length by exact Hsn. rewrite Hsl. reflexivity.
    + eapply Forall_impl; [|eassumption]. simpl. tauto.
  - inversion F; subst. apply Forall_cons; [tauto|]. apply Forall_cons.
    + rewrite Esep, bar_line_cells by assumption. exact Hsl.
    + eapply Forall_impl; [|eassumption]. simpl. tauto.
  - exact Hw.
  - rewrite Esep, bar_line_cells by assumption. apply Forall_forall. intros c Hin.
    unfold sepcells in Hin. apply in_map_iff in Hin as (w & <- & Hin).
    rewrite Forall_forall in Hw3. specialize (Hw3 w Hin). exists (w - 3)%nat.
    replace (w - 2)%nat with (S (w - 3)) by lia.
    assert (Es : strip (repeat 45 (S (w - 3))) = repeat 45 (S (w - 3))).
    { apply strip_by_clean. apply forallb_forall. intros x Hx. apply In_repeat in Hx. subst. reflexivity. }
    rewrite <- Es at 1. rewrite strip_pad by reflexivity. exact Es.
Qed.
