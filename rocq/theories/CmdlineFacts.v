(** * The command line tools: proofs *)
From Coq Require Import String List Arith NArith ZArith Bool Lia.
From Verif Require Import PyStr PyStrFacts Res UrlQuote Cmdline Spec8.
Import ListNotations.
Open Scope N_scope.

(** ** utf-8 *)
Lemma second_ok : forall b b1, cont_byte b1 = true -> (b = 224 -> 160 <= b1) -> (b = 237 -> b1 < 160) -> (b = 240 -> 144 <= b1) -> (b = 244 -> b1 < 144) ->
  second_byte b b1 = true.
Proof.
  intros b b1 H A B C D. unfold second_byte. rewrite H. cbn [andb].
  destruct (N.eqb_spec b 224); [apply N.leb_le; auto|]. destruct (N.eqb_spec b 237); [apply N.ltb_lt; auto|].
  destruct (N.eqb_spec b 240); [apply N.leb_le; auto|]. destruct (N.eqb_spec b 244); [apply N.ltb_lt; auto|]. reflexivity.
Qed.
Lemma mod64 : forall n, n mod 64 < 64.
Proof. intro. apply N.mod_lt. discriminate. Qed.
Lemma cont_ok : forall m, m < 64 -> cont_byte (128 + m) = true.
Proof. intros m H. unfold cont_byte. apply andb_true_iff. split; apply N.leb_le; lia. Qed.
Lemma div64 : forall n, n = 64 * (n / 64) + n mod 64.
Proof. intro. apply N.div_mod. discriminate. Qed.
Lemma div4096 : forall n, n / 4096 = n / 64 / 64.
Proof. intro. rewrite N.div_div by discriminate. reflexivity. Qed.
Lemma div262144 : forall n, n / 262144 = n / 64 / 64 / 64.
Proof. intro. rewrite !N.div_div by discriminate. reflexivity. Qed.
Ltac nums0 c := pose proof (div64 c); pose proof (div64 (c / 64)); pose proof (div64 (c / 64 / 64)); pose proof (mod64 c); pose proof (mod64 (c / 64)); pose proof (mod64 (c / 64 / 64)).
Ltac nums c := nums0 c; repeat match goal with H : context [?a mod 64] |- _ => let m := fresh "m" in set (m := a mod 64) in *; clearbody m end;
  repeat match goal with H : context [?a / 64] |- _ => lazymatch a with context [_ / 64] => fail | _ => let m := fresh "d" in set (m := a / 64) in *; clearbody m end end.
(** the four shapes of a character *)
Lemma utf8_shape : forall c a, utf8 c = Some a -> scalar c = true ->
  (a = [c] /\ c < 128) \/
  (exists b b1, a = [b; b1] /\ 194 <= b <= 223 /\ cont_byte b1 = true /\ c = (b - 192) * 64 + (b1 - 128)) \/
  (exists b b1 b2, a = [b; b1; b2] /\ 224 <= b <= 239 /\ second_byte b b1 = true /\ cont_byte b2 = true /\ c = (b - 224) * 4096 + (b1 - 128) * 64 + (b2 - 128)) \/
  (exists b b1 b2 b3, a = [b; b1; b2; b3] /\ 240 <= b <= 244 /\ second_byte b b1 = true /\ cont_byte b2 = true /\ cont_byte b3 = true /\
     c = (b - 240) * 262144 + (b1 - 128) * 4096 + (b2 - 128) * 64 + (b3 - 128)).
Proof.
  intros c a H S. unfold scalar in S. apply andb_true_iff in S as [S1 S2]. apply N.ltb_lt in S1. apply negb_true_iff, andb_false_iff in S2. rewrite !N.leb_gt in S2.
  unfold utf8 in H. rewrite div4096, div262144 in H.
  destruct (N.ltb_spec c 128); [injection H as <-; auto|]. right.
  destruct (N.ltb_spec c 2048).
  { injection H as <-. left. exists (192 + c / 64), (128 + c mod 64). nums c. split; [reflexivity|]. split; [lia|]. split; [apply cont_ok; assumption|lia]. }
  right. destruct (N.ltb_spec c 65536).
  - assert (E : (55296 <=? c) && (c <=? 57343) = false) by (apply andb_false_iff; rewrite !N.leb_gt; exact S2). rewrite E in H. injection H as <-. left.
    exists (224 + c / 64 / 64), (128 + (c / 64) mod 64), (128 + c mod 64). nums c. split; [reflexivity|]. split; [lia|]. split; [apply second_ok; [apply cont_ok; assumption|lia..]|]. split; [apply cont_ok; assumption|lia].
  - injection H as <-. right. exists (240 + c / 64 / 64 / 64), (128 + (c / 64 / 64) mod 64), (128 + (c / 64) mod 64), (128 + c mod 64). nums c.
    split; [reflexivity|]. split; [lia|]. split; [apply second_ok; [apply cont_ok; assumption|lia..]|]. split; [apply cont_ok; assumption|]. split; [apply cont_ok; assumption|lia].
Qed.
Ltac rng := repeat match goal with
  | |- context [?a <? ?b] => destruct (N.ltb_spec a b); try lia
  | |- context [?a <=? ?b] => destruct (N.leb_spec a b); try lia end; cbn [andb].
Lemma decode_char : forall c a r, utf8 c = Some a -> scalar c = true -> utf8_decode (a ++ r) = option_map (cons c) (utf8_decode r).
Proof.
  intros c a r H S. destruct (utf8_shape c a H S) as [[-> L]|[(b & b1 & -> & L & C1 & E)|[(b & b1 & b2 & -> & L & C1 & C2 & E)|(b & b1 & b2 & b3 & -> & L & C1 & C2 & C3 & E)]]]; cbn [app utf8_decode].
  - rewrite (proj2 (N.ltb_lt c 128)) by exact L. reflexivity.
  - rng; rewrite C1, <- E; reflexivity.
  - rng; rewrite C1, C2, <- E; reflexivity.
  - rng; rewrite C1, C2, C3, <- E; reflexivity.
Qed.
Lemma lemma_utf8 : forall t, forallb scalar t = true -> exists b, utf8_encode t = Some b /\ forall r, utf8_decode (b ++ r) = option_map (app t) (utf8_decode r).
Proof.
  induction t as [|c t IH]; intro H.
  - exists []. split; [reflexivity|]. intro r. cbn [app]. destruct (utf8_decode r); reflexivity.
  - cbn [forallb] in H. apply andb_true_iff in H as [Hc Ht]. destruct (IH Ht) as (b & E & D).
    assert (U : exists a, utf8 c = Some a).
    { unfold utf8. pose proof Hc as S. unfold scalar in S. apply andb_true_iff in S as [_ S2]. apply negb_true_iff in S2. rewrite S2.
      repeat match goal with |- context [if ?x then _ else _] => destruct x end; eauto. }
    destruct U as [a U]. exists (a ++ b). cbn [utf8_encode]. rewrite U, E. split; [reflexivity|]. intro r. rewrite <- app_assoc, (decode_char c a _ U Hc), D.
    destruct (utf8_decode r); reflexivity.
Qed.
Lemma lemma_utf8_truncated : forall t c b a p q, forallb scalar t = true -> scalar c = true -> utf8_encode t = Some b -> utf8 c = Some a -> a = p ++ q -> q <> [] ->
  utf8_decode (b ++ p) = Some t.
Proof.
  intros t c b a p q Ht Hc Hb Ha Hp Hq. destruct (lemma_utf8 t Ht) as (b' & E & D). rewrite Hb in E. injection E as <-. rewrite D.
  assert (G : utf8_decode p = Some []); [|rewrite G; cbn [option_map]; rewrite app_nil_r; reflexivity].
  destruct (utf8_shape c a Ha Hc) as [[-> L]|[(b0 & b1 & -> & L & C1 & E)|[(b0 & b1 & b2 & -> & L & C1 & C2 & E)|(b0 & b1 & b2 & b3 & -> & L & C1 & C2 & C3 & E)]]];
    repeat (destruct p as [|? p]; [cbn [utf8_decode]; try reflexivity; rng; rewrite ?C1, ?C2, ?C3; reflexivity|cbn [app] in Hp; injection Hp as <- Hp]);
    destruct p; cbn [app] in Hp; try discriminate; symmetry in Hp; contradiction.
Qed.

(** ** files *)
Lemma put_names : forall f i b p, names (put f i b) p = names f p.
Proof. reflexivity. Qed.
Lemma open_w_spec : forall f p f1 o, fs_ok f -> open_w f p = (f1, o) ->
  names f1 p = Some o /\ data f1 o = [] /\ fs_ok f1 /\
  (forall q, ~ same_file f q p -> names f1 q = names f q /\ forall j, names f q = Some j -> j <> o /\ data f1 j = data f j) /\
  (forall q, names f q = names f p -> names f p <> None -> names f1 q = Some o).
Proof.
  intros f p f1 o W H. unfold open_w in H. destruct (names f p) as [i|] eqn:E; injection H as <- <-.
  - split; [exact E|]. split; [cbn; rewrite N.eqb_refl; reflexivity|]. split; [exact W|]. split.
    + intros q Hq. split; [reflexivity|]. intros j Hj. assert (j <> i).
      { intros ->. apply Hq. right. rewrite Hj, E. split; [reflexivity|discriminate]. }
      split; [assumption|]. cbn. rewrite (proj2 (N.eqb_neq j i)) by assumption. reflexivity.
    + intros q Hq _. exact Hq.
  - split; [cbn; rewrite (proj2 (str_eqb_eq p p) eq_refl); reflexivity|]. split; [cbn; rewrite N.eqb_refl; reflexivity|]. split.
    + intros q j. cbn. destruct (str_eqb q p); [injection 1 as <-; lia|]. intro Hj. apply W in Hj. lia.
    + split; [|intros q _ Hn; contradiction]. intros q Hq. cbn. assert (En : str_eqb q p = false).
      { apply str_eqb_neq. intros ->. apply Hq. left. reflexivity. }
      rewrite En. split; [reflexivity|]. intros j Hj. pose proof (W _ _ Hj). split; [lia|]. rewrite (proj2 (N.eqb_neq j (free f))) by lia. reflexivity.
Qed.
Lemma write_states_In : forall f i b g, In g (write_states f i b) -> exists n, g = put f i (firstn n b).
Proof. intros f i b g H. unfold write_states in H. apply in_map_iff in H as (n & <- & _). eauto. Qed.
Lemma write_states_last : forall f0 f i b d, last (f0 :: write_states f i b) d = put f i b.
Proof.
  intros f0 f i b d. unfold write_states. rewrite seq_S, map_app. cbn [map]. rewrite app_comm_cons, last_last. cbn [plus]. rewrite firstn_all. reflexivity.
Qed.
Lemma contents_put : forall f o b p, contents (put f o b) p = match names f p with Some j => Some (if j =? o then b else data f j) | None => None end.
Proof. intros. unfold contents. cbn [put names data]. destruct (names f p); reflexivity. Qed.
Lemma put_nil : forall f i, data f i = [] -> forall p, contents (put f i []) p = contents f p.
Proof.
  intros f i H p. rewrite contents_put. unfold contents. destruct (names f p) as [j|]; [|reflexivity]. cbn [option_map]. destruct (N.eqb_spec j i); [subst; rewrite H|]; reflexivity.
Qed.
(** the states of every run *)
Lemma run_states : forall w conv src dst encoding f r l, fs_ok f -> convert w conv src dst encoding f = (r, l) ->
  (l = [f] /\ (r = CFail COpen \/ r = CFail CLookup)) \/
  (exists c i f1 o, lookup w encoding = Some c /\ names f src = Some i /\ open_w f dst = (f1, o) /\
    ((l = [f; f1] /\ ((dec c (data f1 i) = None /\ r = CFail CDecode) \/
                     (exists t, dec c (data f1 i) = Some t /\ ((exists e, conv t = Exc e /\ r = CFail (CConvert e)) \/
                                                           (exists u, conv t = Ok u /\ enc c u = None /\ r = CFail CEncode))))) \/
     (exists t u b, dec c (data f1 i) = Some t /\ conv t = Ok u /\ enc c u = Some b /\
       ((l = f :: write_states f1 o b /\ r = CDone) \/ (exists n, (n < List.length b)%nat /\ l = f :: write_states f1 o (firstn n b) /\ r = CFail CDisk))))).
Proof.
  intros w conv src dst encoding f r l W H. unfold convert in H.
  destruct (names f src) as [i|] eqn:Es; [|injection H as <- <-; auto].
  destruct (negb (readable w src)); [injection H as <- <-; auto|].
  destruct (lookup w encoding) as [c|] eqn:El; [|injection H as <- <-; auto].
  destruct (negb (writable w dst)); [injection H as <- <-; auto|].
  destruct (open_w f dst) as [f1 o] eqn:Eo. right. exists c, i, f1, o. split; [reflexivity|]. split; [reflexivity|]. split; [reflexivity|].
  destruct (dec c (data f1 i)) as [t|] eqn:Ed; [|injection H as <- <-; left; auto].
  destruct (conv t) as [u|e] eqn:Ec; [|injection H as <- <-; left; split; [reflexivity|]; right; exists t; split; [reflexivity|]; left; eauto].
  destruct (enc c u) as [b|] eqn:Ee; [|injection H as <- <-; left; split; [reflexivity|]; right; exists t; split; [reflexivity|]; right; eauto].
  right. exists t, u, b. split; [reflexivity|]. split; [exact Ec|]. split; [exact Ee|].
  destruct (room w) as [n|]; [|injection H as <- <-; auto]. destruct (Nat.ltb_spec n (List.length b)); injection H as <- <-; [right; eauto|left; auto].
Qed.
Lemma lemma_others : forall w conv src dst encoding f r l g p, fs_ok f -> convert w conv src dst encoding f = (r, l) -> In g l ->
  ~ same_file f p dst -> contents g p = contents f p.
Proof.
  intros w conv src dst encoding f r l g p W H Hg Hp.
  assert (P : forall f1 o b, open_w f dst = (f1, o) -> contents f1 p = contents f p /\ contents (put f1 o b) p = contents f p).
  { intros f1 o b Ho. destruct (open_w_spec _ _ _ _ W Ho) as (_ & _ & _ & Q & _). destruct (Q p Hp) as [Q1 Q2]. rewrite contents_put. unfold contents. rewrite Q1.
    destruct (names f p) as [j|]; [|auto]. destruct (Q2 j eq_refl) as [Q3 Q4]. cbn [option_map]. rewrite Q4, (proj2 (N.eqb_neq j o) Q3). auto. }
  destruct (run_states _ _ _ _ _ _ _ _ W H) as [[-> _]|(c & i & f1 & o & _ & _ & Ho & [[-> _]|(t & u & b & _ & _ & _ & [[-> _]|(n & _ & -> & _)])])].
  - destruct Hg as [<-|[]]. reflexivity.
  - destruct Hg as [<-|[<-|[]]]; [reflexivity|]. apply (P f1 o [] Ho).
  - destruct Hg as [<-|Hg]; [reflexivity|]. apply write_states_In in Hg as (k & ->). apply P, Ho.
  - destruct Hg as [<-|Hg]; [reflexivity|]. apply write_states_In in Hg as (k & ->). apply P, Ho.
Qed.
Lemma src_data : forall f src dst i f1 o, fs_ok f -> names f src = Some i -> ~ same_file f src dst -> open_w f dst = (f1, o) -> data f1 i = data f i.
Proof. intros f src dst i f1 o W Hs Hn Ho. destruct (open_w_spec _ _ _ _ W Ho) as (_ & _ & _ & Q & _). apply (Q src Hn). exact Hs. Qed.
Lemma contents_data : forall f p b, contents f p = Some b -> exists i, names f p = Some i /\ data f i = b.
Proof. intros f p b H. unfold contents in H. destruct (names f p); [|discriminate]. injection H as <-. eauto. Qed.
Lemma convert_open : forall w conv src dst encoding f c, can_open w src dst encoding f c ->
  exists i f1 o, names f src = Some i /\ open_w f dst = (f1, o) /\ convert w conv src dst encoding f =
      match dec c (data f1 i) with
      | None => (CFail CDecode, [f; f1])
      | Some t =>
        match conv t with
        | Exc e => (CFail (CConvert e), [f; f1])
        | Ok u =>
          match enc c u with
          | None => (CFail CEncode, [f; f1])
          | Some b =>
            match room w with
            | Some n => if (n <? List.length b)%nat
                        then (CFail CDisk, f :: write_states f1 o (firstn n b))
                        else (CDone, f :: write_states f1 o b)
            | None => (CDone, f :: write_states f1 o b)
            end
          end
        end
      end.
Proof.
  intros w conv src dst encoding f c [W S R L Wr]. destruct (names f src) as [i|] eqn:Es; [|contradiction]. destruct (open_w f dst) as [f1 o] eqn:Eo.
  exists i, f1, o. split; [reflexivity|]. split; [reflexivity|]. unfold convert. rewrite Es, R, L, Wr, Eo. reflexivity.
Qed.
Lemma lemma_success : forall w conv src dst encoding f c bs t u b,
  can_open w src dst encoding f c -> ~ same_file f src dst -> contents f src = Some bs ->
  dec c bs = Some t -> conv t = Ok u -> enc c u = Some b -> enough_room w b ->
  exists l, convert w conv src dst encoding f = (CDone, l) /\ contents (final l f) dst = Some b /\
    forall g, In g l -> contents g dst = contents f dst \/ exists n, contents g dst = Some (firstn n b).
Proof.
  intros w conv src dst encoding f c bs t u b C Hn Hs Hd Hc He Hr. destruct (convert_open w conv _ _ _ _ _ C) as (i & f1 & o & Ei & Eo & E).
  destruct (contents_data _ _ _ Hs) as (i' & Ei' & Eb). rewrite Ei in Ei'. injection Ei' as <-.
  rewrite (src_data _ _ _ _ _ _ (co_ok _ _ _ _ _ _ C) Ei Hn Eo), Eb, Hd, Hc, He in E.
  assert (E2 : convert w conv src dst encoding f = (CDone, f :: write_states f1 o b)).
  { rewrite E. unfold enough_room in Hr. destruct (room w) as [n|]; [|reflexivity]. rewrite (proj2 (Nat.ltb_ge n (List.length b)) Hr). reflexivity. }
  destruct (open_w_spec _ _ _ _ (co_ok _ _ _ _ _ _ C) Eo) as (Q1 & Q2 & _).
  exists (f :: write_states f1 o b). split; [exact E2|]. split.
  - unfold final. rewrite write_states_last, contents_put, Q1, N.eqb_refl. reflexivity.
  - intros g [<-|Hg]; [left; reflexivity|]. right. apply write_states_In in Hg as (n & ->). exists n. rewrite contents_put, Q1, N.eqb_refl. reflexivity.
Qed.
Lemma lemma_nothing : forall w conv src dst encoding f,
  contents f src = None \/ readable w src = false \/ lookup w encoding = None \/ writable w dst = false ->
  exists e, convert w conv src dst encoding f = (CFail e, [f]).
Proof.
  intros w conv src dst encoding f H. unfold convert. unfold contents in H. destruct (names f src) as [i|]; [|exists COpen; reflexivity].
  destruct (readable w src); [|exists COpen; reflexivity]. destruct (lookup w encoding); [|exists CLookup; reflexivity]. destruct (writable w dst); [|exists COpen; reflexivity].
  exfalso. destruct H as [H|[H|[H|H]]]; discriminate H.
Qed.
Lemma lemma_failure : forall w conv src dst encoding f c bs, can_open w src dst encoding f c -> ~ same_file f src dst -> contents f src = Some bs ->
  (dec c bs = None \/ (exists t, dec c bs = Some t /\ ((exists e, conv t = Exc e) \/ (exists u, conv t = Ok u /\ enc c u = None)))) ->
  exists e l, convert w conv src dst encoding f = (CFail e, l) /\ contents (final l f) dst = Some [].
Proof.
  intros w conv src dst encoding f c bs C Hn Hs H. destruct (convert_open w conv _ _ _ _ _ C) as (i & f1 & o & Ei & Eo & E).
  destruct (contents_data _ _ _ Hs) as (i' & Ei' & Eb). rewrite Ei in Ei'. injection Ei' as <-.
  rewrite (src_data _ _ _ _ _ _ (co_ok _ _ _ _ _ _ C) Ei Hn Eo), Eb in E.
  destruct (open_w_spec _ _ _ _ (co_ok _ _ _ _ _ _ C) Eo) as (Q1 & Q2 & _).
  assert (F : contents (final [f; f1] f) dst = Some []) by (unfold final, contents; cbn [last]; rewrite Q1; cbn [option_map]; rewrite Q2; reflexivity).
  rewrite E. destruct H as [H|(t & H & [(e & H2)|(u & H2 & H3)])].
  - rewrite H. eauto.
  - rewrite H, H2. eauto.
  - rewrite H, H2, H3. eauto.
Qed.
Lemma lemma_same : forall w conv src dst encoding f c u b, can_open w src dst encoding f c -> same_file f src dst ->
  dec c [] = Some [] -> conv [] = Ok u -> enc c u = Some b -> enough_room w b ->
  exists l, convert w conv src dst encoding f = (CDone, l) /\ contents (final l f) src = Some b.
Proof.
  intros w conv src dst encoding f c u b C Hn Hd Hc He Hr. destruct (convert_open w conv _ _ _ _ _ C) as (i & f1 & o & Ei & Eo & E).
  destruct (open_w_spec _ _ _ _ (co_ok _ _ _ _ _ _ C) Eo) as (Q1 & Q2 & _ & _ & Q5).
  assert (Es : names f src = names f dst /\ names f dst <> None).
  { destruct Hn as [->|Hn]; [split; [reflexivity|]; rewrite Ei; discriminate|exact Hn]. }
  assert (Eio : i = o).
  { unfold open_w in Eo. destruct Es as [Es Hne]. rewrite <- Es, Ei in Eo. injection Eo as _ <-. reflexivity. }
  subst o. rewrite Q2, Hd, Hc, He in E. exists (f :: write_states f1 i b). split.
  - rewrite E. unfold enough_room in Hr. destruct (room w) as [n|]; [|reflexivity]. rewrite (proj2 (Nat.ltb_ge n (List.length b)) Hr). reflexivity.
  - unfold final. rewrite write_states_last, contents_put, (Q5 src (proj1 Es) (proj2 Es)), N.eqb_refl. reflexivity.
Qed.
Lemma lemma_utf8_cli : forall w conv src dst encoding f t u, can_open w src dst encoding f utf8_codec -> ~ same_file f src dst -> room w = None ->
  forallb scalar t = true -> contents f src = utf8_encode t -> conv t = Ok u -> forallb scalar u = true ->
  exists l, convert w conv src dst encoding f = (CDone, l) /\ contents (final l f) dst = utf8_encode u.
Proof.
  intros w conv src dst encoding f t u C Hn Hr Ht Hs Hc Hu. destruct (lemma_utf8 t Ht) as (bs & Eb & Db). destruct (lemma_utf8 u Hu) as (b & Eu & _).
  rewrite Eb in Hs. destruct (lemma_success w conv src dst encoding f utf8_codec bs t u b C Hn Hs) as (l & E1 & E2 & _).
  - cbn [utf8_codec dec]. rewrite <- (app_nil_r bs), Db. cbn. rewrite app_nil_r. reflexivity.
  - exact Hc.
  - exact Eu.
  - unfold enough_room. rewrite Hr. exact I.
  - exists l. rewrite Eu. auto.
Qed.
