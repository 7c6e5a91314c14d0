(** * How the inline rules match URLs *)
From Coq Require Import String List Arith NArith ZArith Bool Lia.
From Verif Require Import PyStr PyStrFacts GNames Regex Rules RegexFacts RegexRun Utils Spec4.
Import ListNotations.
Open Scope N_scope.
From Verif Require Import InlineRun.
(** ** URLs *)
Lemma alts_lit_hit : forall l p w t b cs k x, In p l ->
  (forall q, In q l -> startswith (q ++ w) (p ++ w ++ t) = true -> q = p) ->
  (forall b' t' cs', startswith w t' = false -> k (mk b' t' cs') = None) ->
  k (mk (rev p ++ b) (w ++ t) cs) = Some x -> m (alts (map lit l)) (mk b (p ++ w ++ t) cs) k = Some x.
Proof.
  induction l as [|q l IH]; intros p w t b cs k x Hin Hu Hn Hk; [contradiction|].
  assert (Hd : m (lit q) (mk b (p ++ w ++ t) cs) k = if startswith (q ++ w) (p ++ w ++ t) then Some x else None).
  { destruct (startswith (q ++ w) (p ++ w ++ t)) eqn:E.
    - rewrite (Hu q (or_introl eq_refl) E). rewrite m_lit. exact Hk.
    - rewrite m_lit_split. destruct (startswith q (p ++ w ++ t)) eqn:Eq; [|reflexivity]. apply Hn.
      apply startswith_app in Eq as (t' & Et). rewrite Et in *. rewrite skipn_app, skipn_all, Nat.sub_diag. cbn [app skipn].
      destruct (startswith w t') eqn:Ew; [|reflexivity]. apply startswith_app in Ew as (t2 & ->).
      rewrite <- E. symmetry. apply startswith_app. exists t2. rewrite app_assoc. reflexivity. }
  assert (G : In p l \/ q = p) by (destruct Hin; auto).
  destruct l as [|q' l].
  - destruct G as [[]|<-]. change (m (lit q) (mk b (q ++ w ++ t) cs) k = Some x). rewrite Hd.
    replace (startswith (q ++ w) (q ++ w ++ t)) with true; [reflexivity|]. symmetry. apply startswith_app. exists t. rewrite app_assoc. reflexivity.
  - cbn [map alts]. rewrite m_alt, Hd. destruct (startswith (q ++ w) (p ++ w ++ t)) eqn:E; [reflexivity|]. cbn [orelse].
    apply (IH p w t b cs k x); [|intros; apply Hu; [right|]; assumption|exact Hn|exact Hk].
    destruct G as [G|<-]; [exact G|]. exfalso. rewrite <- not_true_iff_false in E. apply E.
    apply startswith_app. exists t. rewrite app_assoc. reflexivity.
Qed.
Lemma proto_unique : forall p q t, In p protocols -> In q protocols ->
  startswith (q ++ $ "://") (p ++ $ "://" ++ t) = true -> q = p.
Proof.
  intros p q t Hp Hq H. unfold protocols in *. cbn [In] in *.
  repeat destruct Hp as [<-|Hp]; try contradiction; repeat destruct Hq as [<-|Hq]; try contradiction; try reflexivity; discriminate H.
Qed.
Lemma url_hit : forall p r b t, In p protocols -> r <> [] -> word_start b = true ->
  forallb (fun c => negb (is_space c) && negb (c =? 36)) r = true ->
  match t with [] => true | c :: _ => is_space c || (c =? 36) end = true ->
  let u := p ++ $ "://" ++ r in
  m inline_re (mk b (u ++ t) []) fin = Some (mk (rev u ++ b) t [(G_url, u); (G_url_target, u); (G_url_proto, p)]).
Proof.
  intros p r b t Hp Hr Hb Hf Ht. cbv zeta. rewrite inline_alts.
  assert (F : exists c x, p ++ $ "://" ++ r = c :: x /\ c <> 91 /\ c <> 126).
  { unfold protocols in Hp. cbn [In] in Hp. repeat destruct Hp as [<-|Hp]; try contradiction;
      (do 2 eexists; split; [reflexivity|split; discriminate]). }
  rewrite link_no.
  2:{ destruct F as (c & x & -> & H1 & _). cbn [app startswith]. destruct (N.eqb_spec 91 c); [congruence|reflexivity]. }
  cbn [orelse]. apply orelse_some. unfold r_url. rewrite m_grp. unfold seqs at 1. rewrite m_seq.
  set (K := fun s' => m (RSeq (ROpt (RGrp G_escaped_url (c1 126))) _) s' _).
  assert (KK : K (mk b ((p ++ $ "://" ++ r) ++ t) []) =
    Some (mk (rev (p ++ $ "://" ++ r) ++ b) t [(G_url, p ++ $ "://" ++ r); (G_url_target, p ++ $ "://" ++ r); (G_url_proto, p)])).
  { unfold K. rewrite m_seq. unfold ROpt. rewrite m_alt.
    assert (E0 : forall k, m (RGrp G_escaped_url (c1 126)) (mk b ((p ++ $ "://" ++ r) ++ t) []) k = None).
    { intro k. apply grp_none. intro k'. destruct F as (c & x & -> & _ & H2). cbn [app]. unfold c1. rewrite m_chr.
      destruct (N.eqb_spec 126 c); [congruence|reflexivity]. }
    rewrite E0. cbn [orelse]. change (m REps ?s ?k) with (k s). cbn beta.
    rewrite m_grp. unfold seqs. rewrite m_seq. rewrite m_grp. unfold proto.
    replace ((p ++ $ "://" ++ r) ++ t) with (p ++ $ "://" ++ (r ++ t)) by (repeat rewrite <- app_assoc; reflexivity).
    apply (alts_lit_hit protocols).
    - exact Hp.
    - intros q Hq. apply proto_unique; assumption.
    - intros b' t' cs' Hw. rewrite m_seq. apply (m_lit_none ($ "://")). exact Hw.
    - cbn beta. cbn [bef rest caps]. rewrite m_seq, m_lit. cbn [bef rest caps]. destruct r as [|c0 r0]; [congruence|].
      cbn [forallb] in Hf. apply andb_true_iff in Hf as [Hc0 Hf].
      assert (P : forall c, negb (is_space c) && negb (c =? 36) = negb ((c =? 36) || is_space c)).
      { intro c. destruct (is_space c), (c =? 36); reflexivity. }
      unfold RPlus. rewrite m_seq. cbn [app]. rewrite m_chr. rewrite <- P, Hc0.
      apply star_take.
      + rewrite forallb_forall in *. intros c Hc. rewrite <- P. apply Hf. exact Hc.
      + destruct t as [|c t]; [exact I|]. cbn [stop]. rewrite <- P. destruct (is_space c), (c =? 36); try reflexivity; discriminate Ht.
      + unfold fin. cbn [bef rest caps]. f_equal. f_equal.
        * repeat (rewrite ?rev_app_distr, <- ?app_assoc; cbn [rev app]). reflexivity.
        * assert (L1 : p ++ 58 :: 47 :: 47 :: c0 :: r0 ++ t = (p ++ 58 :: 47 :: 47 :: c0 :: r0) ++ t)
            by (repeat (rewrite <- app_assoc; cbn [app]); reflexivity).
          f_equal; [|f_equal; [|f_equal]]; f_equal.
          -- transitivity (firstn (List.length ((p ++ 58 :: 47 :: 47 :: c0 :: r0) ++ t) - List.length t) ((p ++ 58 :: 47 :: 47 :: c0 :: r0) ++ t));
               [rewrite <- L1; reflexivity|apply firstn_grp].
          -- transitivity (firstn (List.length ((p ++ 58 :: 47 :: 47 :: c0 :: r0) ++ t) - List.length t) ((p ++ 58 :: 47 :: 47 :: c0 :: r0) ++ t));
               [rewrite <- L1; reflexivity|apply firstn_grp].
          -- exact (firstn_grp p (58 :: 47 :: 47 :: c0 :: r0 ++ t)). }
  rewrite m_alt. destruct b as [|c b].
  - rewrite m_bos. rewrite KK. reflexivity.
  - rewrite m_bos_no. cbn [orelse]. cbn [m bef]. cbn in Hb. rewrite Hb. cbn [xorb]. exact KK.
Qed.
