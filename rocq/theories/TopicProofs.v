(** Proofs about topic matching. *)
From Verif Require Import Base SerModel TopicModel TopicSpec.

(** ** The index loops as a recursion over suffixes *)
Definition special (c : Z) (f' : list Z) : bool :=
  match f' with
  | [x] => (c =? 47) && ((x =? 43) || (x =? 35))
  | [x; y] => (x =? 47) && (y =? 35)
  | _ => false
  end.
Fixpoint drop_level (n : list Z) : list Z :=
  match n with [] => [] | c :: r => if c =? 47 then n else drop_level r end.
Fixpoint mt (pv : bool) (n f : list Z) {struct f} : bool :=
  match n with
  | [] => match f with [] => true | _ => false end
  | a :: n' =>
    match f with
    | [] => false
    | c :: f' =>
      if a =? c then (match n' with [] => special c f' | _ => false end) || mt (c =? 47) n' f'
      else if (c =? 43) && pv then
        match drop_level n with
        | [] => match f' with [] => true | _ => false end
        | _ :: r => match f' with d :: f'' => if d =? 47 then mt true r f'' else false | [] => false end
        end
      else (c =? 35) && match f' with [] => true | _ => false end && pv
    end
  end.

Lemma zlen_nil' {A} : zlen (@nil A) = 0. Proof. reflexivity. Qed.
Lemma zlen_cons' {A} (x : A) l : zlen (x :: l) = 1 + zlen l.
Proof. unfold zlen. cbn [length]. lia. Qed.
Lemma zlen_app' {A} (a b : list A) : zlen (a ++ b) = zlen a + zlen b.
Proof. unfold zlen. rewrite app_length. lia. Qed.
Lemma zlen_pos {A} (l : list A) : 0 <= zlen l. Proof. unfold zlen. lia. Qed.

Ltac zl := repeat rewrite ?zlen_app', ?zlen_cons', ?zlen_nil' in *.

Lemma rd_at (p : list Z) a r x : rd ((p ++ a :: r) ++ x) (zlen p) = Ok a.
Proof.
  unfold rd. rewrite <- app_assoc. cbn [app]. pose proof (zlen_pos p). pose proof (zlen_pos (r ++ x)).
  replace ((0 <=? zlen p) && (zlen p <? zlen (p ++ a :: r ++ x))) with true by (rewrite zlen_app', zlen_cons'; lia).
  f_equal. unfold zlen. rewrite Nat2Z.id, app_nth2, Nat.sub_diag by lia. reflexivity.
Qed.
Lemma rd_at1 (p : list Z) a b r x : rd ((p ++ a :: b :: r) ++ x) (zlen p + 1) = Ok b.
Proof.
  replace (p ++ a :: b :: r) with ((p ++ [a]) ++ b :: r) by (rewrite <- app_assoc; reflexivity).
  replace (zlen p + 1) with (zlen (p ++ [a])) by (rewrite zlen_app', zlen_cons', zlen_nil'; lia). apply rd_at.
Qed.
Lemma rd_at2 (p : list Z) a b c r x : rd ((p ++ a :: b :: c :: r) ++ x) (zlen p + 2) = Ok c.
Proof.
  replace (p ++ a :: b :: c :: r) with ((p ++ [a]) ++ b :: c :: r) by (rewrite <- app_assoc; reflexivity).
  replace (zlen p + 2) with (zlen (p ++ [a]) + 1) by (rewrite zlen_app', zlen_cons', zlen_nil'; lia). apply rd_at1.
Qed.

Lemma special_cases (p : list Z) c f' x : zlen (p ++ c :: f') < 65536 ->
  matchEndWildcardsSpecialCases ((p ++ c :: f') ++ x) (zlen (p ++ c :: f')) (zlen p) = Ok (special c f').
Proof.
  intros HL. rewrite zlen_app', zlen_cons' in *. pose proof (zlen_pos p). pose proof (zlen_pos f').
  unfold matchEndWildcardsSpecialCases, u32.
  destruct f' as [|d [|e [|g f']]]; repeat rewrite ?zlen_cons', ?zlen_nil' in *; try pose proof (zlen_pos f').
  - replace (_ && _) with false by lia. cbn [rbind]. replace (zlen p =? _) with false by lia. reflexivity.
  - replace (_ && _) with false by lia. cbn [rbind]. replace (zlen p =? _) with true by lia.
    rewrite rd_at, rd_at1. cbn [rbind special]. unfold SLASH, PLUS, HASH.
    destruct (c =? 47); [|reflexivity]. cbn [rbind andb]. destruct (d =? 43); reflexivity.
  - replace (_ && _) with true by lia. rewrite rd_at1, rd_at2. cbn [rbind special]. unfold SLASH, HASH.
    replace (zlen p =? (zlen p + _ - 2) mod 4294967296) with false by lia.
    destruct (d =? 47); reflexivity.
  - replace (_ && _) with false by lia. cbn [rbind]. replace (zlen p =? _) with false by lia. reflexivity.
Qed.

Lemma level_end n2 : forall n1 x fuel, (length n2 < fuel)%nat -> zlen (n1 ++ n2) < 65536 ->
  level_end_loop fuel ((n1 ++ n2) ++ x) (zlen (n1 ++ n2)) (zlen n1) =
    Ok (match drop_level n2 with [] => false | _ => true end, zlen (n1 ++ n2) - zlen (drop_level n2)).
Proof.
  induction n2 as [|c n2 IH]; intros n1 x fuel Hf HL; (destruct fuel as [|k]; [cbn in Hf; lia|]); cbn [level_end_loop drop_level].
  - rewrite app_nil_r. replace (_ <? _) with false by lia. rewrite zlen_nil', Z.sub_0_r. reflexivity.
  - pose proof (zlen_pos n1). pose proof (zlen_pos n2).
    replace (zlen n1 <? zlen (n1 ++ c :: n2)) with true by (rewrite zlen_app', zlen_cons'; lia).
    rewrite rd_at. cbn [rbind]. unfold SLASH. destruct (c =? 47) eqn:Ec.
    + rewrite zlen_app'. do 2 f_equal. lia.
    + replace (n1 ++ c :: n2) with ((n1 ++ [c]) ++ n2) in * by (rewrite <- app_assoc; reflexivity).
      replace (u16 (zlen n1 + 1)) with (zlen (n1 ++ [c])).
      * apply IH; [cbn in Hf; lia|exact HL].
      * unfold u16. rewrite !zlen_app', zlen_cons', zlen_nil' in *. lia.
Qed.

Lemma drop_level_split n : exists x, n = x ++ drop_level n /\ ~ In 47 x /\
  (drop_level n = [] \/ exists r, drop_level n = 47 :: r).
Proof.
  induction n as [|c n (x & E & Hx & K)]; [exists []; cbn; auto|]. cbn [drop_level].
  destruct (c =? 47) eqn:Ec.
  - exists []. cbn. split; [reflexivity|]. split; [tauto|]. right. exists n. f_equal. lia.
  - exists (c :: x). split; [cbn [app]; congruence|]. split; [|exact K]. cbn. intros [K'|K']; [lia|tauto].
Qed.

Definition pv_of (f1 : list Z) : bool := match f1 with [] => true | _ => last f1 0 =? 47 end.
Lemma pv_of_snoc f1 c : pv_of (f1 ++ [c]) = (c =? 47).
Proof. unfold pv_of. rewrite last_last. destruct f1; reflexivity. Qed.
Lemma pv_read f1 g x : (if zlen f1 =? 0 then Ok true else let! c := rd ((f1 ++ g) ++ x) (zlen f1 - 1) in Ok (c =? SLASH)) = Ok (pv_of f1).
Proof.
  destruct f1 as [|c f1] using rev_ind; [reflexivity|]. rewrite zlen_app', zlen_cons', zlen_nil'. pose proof (zlen_pos f1).
  replace (_ =? 0) with false by lia. replace (zlen f1 + (1 + 0) - 1) with (zlen f1) by lia.
  rewrite <- (app_assoc f1 [c] g). cbn [app]. rewrite rd_at. cbn [rbind]. now rewrite pv_of_snoc.
Qed.

Lemma loop_mt g : forall f1 n1 n2 xn xf fuel, (length g < fuel)%nat ->
  zlen (n1 ++ n2) < 65536 -> zlen (f1 ++ g) < 65536 ->
  exists m ni fi,
    match_loop fuel ((n1 ++ n2) ++ xn) (zlen (n1 ++ n2)) ((f1 ++ g) ++ xf) (zlen (f1 ++ g)) (zlen n1) (zlen f1) false = Ok (m, ni, fi) /\
    (if m then true else (ni =? zlen (n1 ++ n2)) && (fi =? zlen (f1 ++ g))) = mt (pv_of f1) n2 g.
Proof.
  induction g as [g IH] using (induction_ltof1 _ (@length Z)); unfold ltof in IH.
  intros f1 n1 n2 xn xf fuel Hf HN HF. destruct fuel as [|k]; [lia|]. cbn [match_loop].
  pose proof (zlen_pos n1) as Hn1. pose proof (zlen_pos f1) as Hf1. pose proof (zlen_pos n2) as Hn2. pose proof (zlen_pos g) as Hg.
  destruct n2 as [|a n2].
  { replace (_ && _) with false by (rewrite app_nil_r; lia). eexists _, _, _. split; [reflexivity|].
    rewrite app_nil_r, Z.eqb_refl. cbn [andb]. destruct g as [|c g]; cbn [mt].
    - rewrite app_nil_r. apply Z.eqb_refl.
    - rewrite zlen_app', zlen_cons'. pose proof (zlen_pos g). lia. }
  destruct g as [|c g].
  { replace (_ && _) with false by (rewrite app_nil_r; lia). eexists _, _, _. split; [reflexivity|].
    cbn [mt]. rewrite zlen_app', zlen_cons'. pose proof (zlen_pos n2). lia. }
  replace (_ && _) with true by (rewrite !zlen_app', !zlen_cons'; pose proof (zlen_pos n2); pose proof (zlen_pos g); lia).
  rewrite !rd_at. cbn [rbind mt]. pose proof (zlen_pos n2) as Hn2'. pose proof (zlen_pos g) as Hg'.
  destruct (a =? c) eqn:Eac.
  - assert (Enext : exists m ni fi,
      match_loop k ((n1 ++ a :: n2) ++ xn) (zlen (n1 ++ a :: n2)) ((f1 ++ c :: g) ++ xf) (zlen (f1 ++ c :: g)) (u16 (zlen n1 + 1)) (u16 (zlen f1 + 1)) false = Ok (m, ni, fi) /\
      (if m then true else (ni =? zlen (n1 ++ a :: n2)) && (fi =? zlen (f1 ++ c :: g))) = mt (c =? 47) n2 g).
    { replace (n1 ++ a :: n2) with ((n1 ++ [a]) ++ n2) in * by (rewrite <- app_assoc; reflexivity).
      replace (f1 ++ c :: g) with ((f1 ++ [c]) ++ g) in * by (rewrite <- app_assoc; reflexivity).
      replace (u16 (zlen n1 + 1)) with (zlen (n1 ++ [a])) by (unfold u16; zl; lia).
      replace (u16 (zlen f1 + 1)) with (zlen (f1 ++ [c])) by (unfold u16; zl; lia).
      rewrite <- (pv_of_snoc f1 c). apply IH; cbn [length] in *; lia || assumption. }
    destruct Enext as (m & ni & fi & E & Em).
    destruct (zlen n1 =? zlen (n1 ++ a :: n2) - 1) eqn:El.
    + rewrite special_cases by exact HF. cbn [rbind]. assert (n2 = []) as ->.
      { destruct n2; [reflexivity|]. rewrite zlen_app', !zlen_cons' in El. pose proof (zlen_pos n2). lia. }
      destruct (special c g); cbn [orb]; [eexists _, _, _; split; reflexivity|].
      rewrite E. eexists _, _, _. split; [reflexivity|exact Em].
    + assert (K : n2 <> []). { intros ->. rewrite zlen_app', zlen_cons', zlen_nil' in El. lia. }
      destruct n2 as [|b n2]; [congruence|]. cbn [rbind orb]. rewrite E. eexists _, _, _. split; [reflexivity|exact Em].
  - unfold matchWildcards. rewrite pv_read. cbn [rbind]. rewrite rd_at. cbn [rbind]. unfold PLUS, HASH, SLASH.
    destruct ((c =? 43) && pv_of f1) eqn:Ep.
    + rewrite level_end; [|rewrite zlen_app', zlen_cons' in *; unfold zlen in *; cbn [length]; lia|exact HN]. cbn [rbind].
      destruct (drop_level_split (a :: n2)) as (x & Ex & _ & Hd).
      replace (if zlen f1 <? zlen (f1 ++ c :: g) - 1 then _ else _) with (Ok (match g with d :: _ => d =? 47 | [] => false end)).
      2:{ rewrite zlen_app', zlen_cons'. destruct g as [|d g].
          - rewrite zlen_nil'. replace (_ <? _) with false by lia. reflexivity.
          - rewrite zlen_cons'. pose proof (zlen_pos g). replace (_ <? _) with true by lia. rewrite rd_at1. reflexivity. }
      cbn [rbind]. destruct Hd as [Hd|[r Hd]]; rewrite Hd.
      * cbn [andb rbind orb]. rewrite zlen_nil', Z.sub_0_r.
        destruct k as [|k]; [cbn in Hf; lia|]. cbn [match_loop].
        assert (Hpos : 0 < zlen (n1 ++ a :: n2)) by (rewrite zlen_app', zlen_cons'; pose proof (zlen_pos n2); lia).
        replace (u16 (u16 (zlen (n1 ++ a :: n2) - 1) + 1)) with (zlen (n1 ++ a :: n2)) by (unfold u16; lia).
        rewrite Z.ltb_irrefl. cbn [andb]. eexists _, _, _. split; [reflexivity|]. rewrite Z.eqb_refl. cbn [andb].
        unfold u16. rewrite zlen_app', zlen_cons' in *. destruct g as [|d g]; rewrite ?zlen_nil', ?zlen_cons' in *; try pose proof (zlen_pos g); lia.
      * destruct g as [|d g].
        { cbn [andb negb rbind orb]. eexists _, _, _. split; [reflexivity|]. cbn [andb].
          rewrite zlen_cons'. pose proof (zlen_pos r). lia. }
        destruct (d =? 47) eqn:Ed; cbn [andb negb rbind orb].
        -- assert (d = 47) as -> by lia.
           replace (n1 ++ a :: n2) with ((n1 ++ x ++ [47]) ++ r) in *.
           2:{ rewrite Ex, Hd, <- !app_assoc. reflexivity. }
           replace (f1 ++ c :: 47 :: g) with ((f1 ++ [c; 47]) ++ g) in * by (rewrite <- app_assoc; reflexivity).
           pose proof (zlen_pos r). pose proof (zlen_pos g).
           replace (u16 (zlen ((n1 ++ x ++ [47]) ++ r) - zlen (47 :: r) + 1)) with (zlen (n1 ++ x ++ [47])).
           2:{ unfold u16. repeat rewrite ?zlen_app', ?zlen_cons', ?zlen_nil' in *. pose proof (zlen_pos x). lia. }
           replace (u16 (u16 (zlen f1 + 1) + 1)) with (zlen (f1 ++ [c; 47])).
           2:{ unfold u16. repeat rewrite ?zlen_app', ?zlen_cons', ?zlen_nil' in *. lia. }
           replace (mt true r g) with (mt (pv_of (f1 ++ [c; 47])) r g) by (replace (f1 ++ [c; 47]) with ((f1 ++ [c]) ++ [47]) by (rewrite <- app_assoc; reflexivity); rewrite pv_of_snoc; reflexivity).
           apply IH; cbn [length] in *; lia || assumption.
        -- eexists _, _, _. split; [reflexivity|]. cbn [andb]. rewrite zlen_cons'. pose proof (zlen_pos r). lia.
    + destruct ((c =? 35) && (zlen f1 =? zlen (f1 ++ c :: g) - 1) && pv_of f1) eqn:Eh; cbn [rbind orb].
      * eexists _, _, _. split; [reflexivity|]. destruct g as [|d g]; [now rewrite Z.sub_diag in * || (destruct (c =? 35), (pv_of f1); (reflexivity || (exfalso; cbn in Eh; rewrite ?andb_false_r in Eh; discriminate)))|].
        rewrite zlen_app', !zlen_cons' in Eh. pose proof (zlen_pos g). exfalso. lia.
      * eexists _, _, _. split; [reflexivity|]. rewrite zlen_app', zlen_cons'. pose proof (zlen_pos n2).
        replace (zlen n1 =? _) with false by lia. cbn [andb]. symmetry.
        destruct g as [|d g]; [|now rewrite andb_false_r].
        rewrite zlen_app', zlen_cons', zlen_nil' in Eh. replace (zlen f1 =? _) with true in Eh by lia. now rewrite andb_true_r in *.
Qed.

(** ** The recursion against the level specification *)
Inductive gapL : list (list Z) -> list (list Z) -> Prop :=
| g_here n nrest frest : (nrest = [] /\ frest = [[35]]) \/ (nrest = [[]] /\ frest <> [[]]) ->
    gapL (n :: nrest) ([43] :: frest)
| g_next n ns f fs : gapL ns fs -> gapL (n :: ns) (f :: fs).

Lemma plus_gap_iff name filter : plus_gap name filter <-> gapL (levels name) (levels filter).
Proof.
  unfold plus_gap. generalize (levels name) (levels filter). intros nl fl. split.
  - intros (ns & n & nrest & fs & frest & -> & -> & HL & H). revert fs HL.
    induction ns as [|x ns IH]; intros [|y fs] HL; cbn [app length] in *; try discriminate; [now constructor|].
    constructor 2. apply IH. lia.
  - induction 1 as [n nrest frest H|n ns f fs H (ns' & n' & nrest & fs' & frest & -> & -> & HL & K)].
    + exists [], n, nrest, [], frest. auto.
    + exists (n :: ns'), n', nrest, (f :: fs'), frest. cbn [app length]. auto 6.
Qed.

Lemma levels_cons s : exists l ls, levels s = l :: ls.
Proof.
  induction s as [|c s (l & ls & E)]; cbn [levels]; [eauto|].
  destruct (c =? 47); [eauto|]. rewrite E. eauto.
Qed.
Lemma levels_slash r : levels (47 :: r) = [] :: levels r. Proof. reflexivity. Qed.
Lemma levels_char c r l ls : c <> 47 -> levels r = l :: ls -> levels (c :: r) = (c :: l) :: ls.
Proof. intros Hc E. cbn [levels]. replace (c =? 47) with false by lia. now rewrite E. Qed.
Lemma levels_empty s : levels s = [[]] -> s = [].
Proof.
  destruct s as [|c s]; [reflexivity|]. destruct (levels_cons s) as (l & ls & E). destruct (Z.eq_dec c 47) as [->|Hc].
  - rewrite levels_slash, E. discriminate.
  - rewrite (levels_char c s l ls Hc E). discriminate.
Qed.
Lemma levels_one s c : c <> 47 -> levels s = [[c]] -> s = [c].
Proof.
  intros Hc H. destruct s as [|d s]; [discriminate|]. destruct (levels_cons s) as (l & ls & E). destruct (Z.eq_dec d 47) as [->|Hd].
  - rewrite levels_slash in H. discriminate.
  - rewrite (levels_char d s l ls Hd E) in H. injection H as -> -> ->. apply levels_empty in E. now subst.
Qed.
Lemma levels_app x r : ~ In 47 x -> levels (x ++ 47 :: r) = x :: levels r.
Proof.
  induction x as [|c x IH]; intros Hx; cbn [app]; [reflexivity|].
  apply levels_char; [intros ->; apply Hx; now left|]. apply IH. intros K. apply Hx. now right.
Qed.
Lemma levels_single x : ~ In 47 x -> levels x = [x].
Proof.
  induction x as [|c x IH]; intros Hx; [reflexivity|].
  apply levels_char; [intros ->; apply Hx; now left|]. apply IH. intros K. apply Hx. now right.
Qed.
Lemma levels_in s l c : In l (levels s) -> In c l -> In c s.
Proof.
  revert l. induction s as [|d s IH]; intros l Hl Hc.
  - destruct Hl as [<-|[]]. destruct Hc.
  - destruct (levels_cons s) as (l0 & ls & E). destruct (Z.eq_dec d 47) as [->|Hd].
    + rewrite levels_slash in Hl. destruct Hl as [<-|Hl]; [destruct Hc|]. right. eauto.
    + rewrite (levels_char d s l0 ls Hd E) in Hl. rewrite E in IH. destruct Hl as [<-|Hl].
      * destruct Hc as [->|Hc]; [now left|]. right. apply (IH l0); [now left|exact Hc].
      * right. apply (IH l); [now right|exact Hc].
Qed.

(** decision rules for lmatch *)
Lemma lm_nil fs : lmatch [] fs <-> fs = [] \/ fs = [[35]].
Proof. split; [intros H; inversion H; auto|intros [->| ->]; constructor]. Qed.
Lemma lm_literal n ns f fs : f <> [43] -> f <> [35] -> (lmatch (n :: ns) (f :: fs) <-> n = f /\ lmatch ns fs).
Proof.
  intros H1 H2. split.
  - intros H. inversion H; subst; congruence || auto.
  - intros [-> H]. now constructor.
Qed.
Lemma lm_plus_iff n ns fs : lmatch (n :: ns) ([43] :: fs) <-> lmatch ns fs.
Proof. split; [intros H; inversion H; subst; assumption|intros H; now constructor]. Qed.
Lemma lm_no_end n ns : ~ lmatch (n :: ns) [].
Proof. intros H. inversion H. Qed.
Lemma gap_literal n ns f fs : f <> [43] -> (gapL (n :: ns) (f :: fs) <-> gapL ns fs).
Proof. intros H. split; [intros K; inversion K; subst; congruence|intros K; now constructor]. Qed.
Lemma gap_nil_l fs : ~ gapL [] fs. Proof. intros H. inversion H. Qed.
Lemma gap_nil_r ns : ~ gapL ns []. Proof. intros H. inversion H. Qed.

Definition plain (n : list Z) : Prop := ~ In 43 n /\ ~ In 35 n.
Lemma plain_tail a n : plain (a :: n) -> plain n /\ a <> 43 /\ a <> 35.
Proof. intros [H1 H2]. cbn in *. repeat split; tauto || (intros ->; tauto). Qed.
Lemma plain_app x y : plain (x ++ y) -> plain x /\ plain y.
Proof. unfold plain. rewrite !in_app_iff. tauto. Qed.

Definition full (n f : list Z) : Prop := lmatch (levels n) (levels f) /\ ~ gapL (levels n) (levels f).
Definition mid (n f : list Z) : Prop :=
  exists l ns fs, levels n = l :: ns /\ levels f = l :: fs /\ lmatch ns fs /\ ~ gapL ns fs.

(** one literal character *)
Lemma full_char a n f : a <> 47 -> a <> 43 -> a <> 35 -> (full (a :: n) (a :: f) <-> mid n f).
Proof.
  intros H1 H2 H3. destruct (levels_cons n) as (l & ns & En). destruct (levels_cons f) as (l' & fs & Ef).
  unfold full, mid. rewrite (levels_char a n l ns), (levels_char a f l' fs), En, Ef by assumption.
  rewrite lm_literal, gap_literal by congruence. split.
  - intros [[E H] G]. injection E as <-. eauto 8.
  - intros (? & ? & ? & E1 & E2 & H & G). injection E1 as <- <-. injection E2 as <- <-. auto.
Qed.
Lemma mid_char a n f : a <> 47 -> (mid (a :: n) (a :: f) <-> mid n f).
Proof.
  intros H1. destruct (levels_cons n) as (l & ns & En). destruct (levels_cons f) as (l' & fs & Ef).
  unfold mid. rewrite (levels_char a n l ns), (levels_char a f l' fs), En, Ef by assumption. split.
  - intros (? & ? & ? & E1 & E2 & H & G). injection E1 as <- <-. injection E2 as <- <-. eauto 8.
  - intros (? & ? & ? & E1 & E2 & H & G). injection E1 as <- <-. injection E2 as <- <-. eauto 8.
Qed.
Lemma mid_slash n f : mid (47 :: n) (47 :: f) <-> full n f.
Proof.
  unfold mid, full. rewrite !levels_slash. split.
  - intros (? & ? & ? & E1 & E2 & H & G). injection E1 as <- <-. injection E2 as <-. auto.
  - intros [H G]. exists [], (levels n), (levels f). auto.
Qed.
Lemma full_slash n f : full (47 :: n) (47 :: f) <-> full n f.
Proof.
  unfold full. rewrite !levels_slash, lm_literal, gap_literal by discriminate. tauto.
Qed.
(** end of the name in the middle of a level, and just behind a slash *)
Lemma mid_end f : mid [] f <-> f = [] \/ f = [47; 35].
Proof.
  unfold mid. change (levels []) with [@nil Z]. split.
  - intros (? & ? & ? & E1 & E2 & H & G). injection E1 as <- <-. apply lm_nil in H. destruct H as [->| ->].
    + left. now apply levels_empty.
    + right. destruct f as [|c f]; [discriminate|]. destruct (Z.eq_dec c 47) as [->|Hc].
      * rewrite levels_slash in E2. injection E2 as E2. apply levels_one in E2; [now subst|lia].
      * destruct (levels_cons f) as (l & ls & E). rewrite (levels_char c f l ls) in E2 by assumption. discriminate.
  - intros [->| ->].
    + exists [], [], []. split; [reflexivity|]. split; [reflexivity|]. split; [constructor|apply gap_nil_l].
    + exists [], [], [[35]]. split; [reflexivity|]. split; [reflexivity|]. split; [constructor|apply gap_nil_l].
Qed.
Lemma full_end f : full [] f <-> f = [] \/ f = [43] \/ f = [35] \/ f = [47; 35].
Proof.
  split.
  - intros [H G]. change (levels []) with [@nil Z] in *. destruct (levels_cons f) as (l & ls & E). rewrite E in *.
    inversion H as [|ns K1 K2|n ns fs K K1 K2|l' ns fs K K1 K2]; subst.
    + right; right; left. apply levels_one; [lia|congruence].
    + apply lm_nil in K. destruct K as [->| ->].
      * right; left. apply levels_one; [lia|congruence].
      * destruct G. apply g_here. auto.
    + assert (M : mid [] f). { exists [], [], ls. rewrite E. split; [reflexivity|]. split; [reflexivity|]. split; [assumption|apply gap_nil_l]. }
      apply mid_end in M. tauto.
  - intros [->|[->|[->| ->]]]; (split; [repeat constructor|]); intros G; inversion G; subst;
      try (match goal with H : _ \/ _ |- _ => destruct H as [[? ?]|[? ?]]; discriminate end);
      match goal with H : gapL _ _ |- _ => inversion H end.
Qed.

Lemma special_iff_mid c f : c <> 47 -> (special c f || mt (c =? 47) [] f = true <-> mid [] f).
Proof.
  intros Hc. rewrite mid_end. unfold special. replace (c =? 47) with false by lia.
  destruct f as [|x [|y [|z f]]]; cbn [mt andb orb].
  - intuition.
  - split; [discriminate|intros [K|K]; discriminate].
  - rewrite orb_false_r. split; [intros K; right; repeat f_equal; lia|intros [K|K]; [discriminate|injection K as -> ->; reflexivity]].
  - split; [discriminate|intros [K|K]; discriminate].
Qed.
Lemma special_iff_full f : special 47 f || mt true [] f = true <-> full [] f.
Proof.
  rewrite full_end. unfold special.
  destruct f as [|x [|y [|z f]]]; cbn [mt andb orb].
  - intuition.
  - change (47 =? 47) with true. cbn [andb]. rewrite orb_false_r, orb_true_iff. split.
    + intros [K|K]; [right; left|right; right; left]; f_equal; lia.
    + intros [K|[K|[K|K]]]; try discriminate; injection K as ->; auto.
  - rewrite orb_false_r. split; [intros K; right; right; right; repeat f_equal; lia|].
    intros [K|[K|[K|K]]]; try discriminate. injection K as -> ->. reflexivity.
  - split; [discriminate|intros [K|[K|[K|K]]]; discriminate].
Qed.

Lemma full_mismatch a c n f : plain (a :: n) -> a <> c -> c <> 43 -> c <> 35 -> ~ full (a :: n) (c :: f).
Proof.
  intros Hp Hac H1 H2 [H _]. destruct (levels_cons n) as (l & ns & En). destruct (levels_cons f) as (l' & fs & Ef).
  destruct (Z.eq_dec a 47) as [->|Ha]; destruct (Z.eq_dec c 47) as [->|Hc]; try congruence;
  rewrite ?levels_slash, ?(levels_char a n l ns), ?(levels_char c f l' fs) in H by assumption;
  apply lm_literal in H; try congruence; destruct H as [H _]; congruence.
Qed.
Lemma mid_mismatch a c n f : a <> c -> ~ mid (a :: n) (c :: f).
Proof.
  intros Hac (l1 & ns1 & fs1 & E1 & E2 & _). destruct (levels_cons n) as (l & ns & En). destruct (levels_cons f) as (l' & fs & Ef).
  destruct (Z.eq_dec a 47) as [->|Ha]; destruct (Z.eq_dec c 47) as [->|Hc]; try congruence;
  rewrite ?levels_slash, ?(levels_char a n l ns), ?(levels_char c f l' fs) in E1 by assumption;
  rewrite ?levels_slash, ?(levels_char a n l ns), ?(levels_char c f l' fs) in E2 by assumption; congruence.
Qed.
(** a filter level that starts with a wildcard but is longer matches no plain name *)
Lemma full_bad_wild w d n f : plain n -> w = 43 \/ w = 35 -> d <> 47 -> ~ full n (w :: d :: f).
Proof.
  intros [Hp1 Hp2] Hw Hd [H _]. destruct (levels_cons f) as (l' & fs & Ef). destruct (levels_cons n) as (l & ns & En).
  rewrite (levels_char w (d :: f) (d :: l') fs) in H by (lia || now apply levels_char).
  rewrite En in H. apply lm_literal in H; try (destruct Hw; congruence). destruct H as [-> _].
  destruct Hw as [->| ->]; [apply Hp1|apply Hp2]; (eapply levels_in; [rewrite En; now left|now left]).
Qed.
Lemma full_hash n : full n [35].
Proof.
  split; [constructor|]. intros G. change (levels [35]) with [[35]] in G. inversion G; subst.
  match goal with H : gapL _ [] |- _ => now apply gap_nil_r in H end.
Qed.

Lemma mt_spec f : forall n, plain n -> n <> [] ->
  (mt true n f = true <-> full n f) /\ (mt false n f = true <-> mid n f).
Proof.
  induction f as [f IH] using (induction_ltof1 _ (@length Z)); unfold ltof in IH.
  intros n Hp Hne. destruct n as [|a n]; [congruence|]. pose proof (plain_tail a n Hp) as (Hpn & Ha1 & Ha2).
  destruct f as [|c f].
  { cbn [mt]. destruct (levels_cons n) as (l & ns & En). split; (split; [discriminate|]).
    - intros [H _]. change (levels []) with [@nil Z] in H. destruct (levels_cons (a :: n)) as (l0 & ls0 & E0). rewrite E0 in H.
      apply lm_literal in H; try discriminate. destruct H as [-> H]. destruct ls0; [|now apply lm_no_end in H].
      apply levels_empty in E0. discriminate.
    - intros (l0 & ns0 & fs0 & E1 & E2 & H & _). change (levels []) with [@nil Z] in E2. injection E2 as <- <-.
      destruct ns0; [|now apply lm_no_end in H]. apply levels_empty in E1. discriminate. }
  cbn [mt]. destruct (a =? c) eqn:Eac.
  - assert (c = a) as -> by lia. destruct (Z.eq_dec a 47) as [->|Ha].
    + change (47 =? 47) with true. rewrite full_slash, mid_slash. destruct n as [|b n].
      * split; apply special_iff_full.
      * cbn [orb]. destruct (IH f ltac:(cbn; lia) (b :: n) Hpn ltac:(discriminate)) as [K _]. split; exact K.
    + rewrite full_char, mid_char by assumption. destruct n as [|b n].
      * split; now apply special_iff_mid.
      * replace (a =? 47) with false by lia. cbn [orb].
        destruct (IH f ltac:(cbn; lia) (b :: n) Hpn ltac:(discriminate)) as [_ K]. split; exact K.
  - assert (Hac : a <> c) by lia. split.
    2:{ rewrite !andb_false_r. split; [discriminate|]. intros K. now apply mid_mismatch in K. }
    rewrite andb_true_r. destruct (c =? 43) eqn:E43.
    + assert (c = 43) as -> by lia. destruct (drop_level_split (a :: n)) as (x & Ex & Hx & Hd).
      destruct Hd as [Hd|[r Hd]]; rewrite Hd in *.
      * rewrite app_nil_r in Ex. rewrite <- Ex in Hx. assert (El : levels (a :: n) = [a :: n]) by now apply levels_single.
        destruct f as [|d f].
        { split; [intros _|reflexivity]. split; [rewrite El; repeat constructor|]. rewrite El.
          intros G; inversion G; subst; [match goal with H : _ \/ _ |- _ => destruct H as [[? ?]|[? ?]]; discriminate end|].
          match goal with H : gapL [] _ |- _ => now apply gap_nil_l in H end. }
        split; [discriminate|]. intros F. exfalso. destruct (Z.eq_dec d 47) as [->|Hd7].
        -- destruct F as [H G]. change (43 :: 47 :: f) with ([43] ++ 47 :: f) in *. rewrite levels_app in * by (cbn; lia).
           rewrite El in *. apply lm_plus_iff, lm_nil in H. destruct H as [H|H].
           ++ destruct (levels_cons f) as (? & ? & E). congruence.
           ++ apply G. constructor. auto.
        -- revert F. apply full_bad_wild; auto.
      * assert (Hpr : plain r). { rewrite Ex in Hp. apply plain_app in Hp. destruct Hp as [_ Hp]. now apply plain_tail in Hp. }
        assert (El : levels (a :: n) = x :: levels r) by (rewrite Ex; now apply levels_app).
        destruct f as [|d f].
        { split; [discriminate|]. intros [H _]. rewrite El in H. change (levels [43]) with [[43]] in H.
          apply lm_plus_iff in H. destruct (levels_cons r) as (? & ? & E). rewrite E in H. now apply lm_no_end in H. }
        destruct (d =? 47) eqn:Ed.
        2:{ split; [discriminate|]. intros F. exfalso. revert F. apply full_bad_wild; auto. lia. }
        assert (d = 47) as -> by lia.
        assert (Elf : levels (43 :: 47 :: f) = [43] :: levels f) by (change (43 :: 47 :: f) with ([43] ++ 47 :: f); apply levels_app; cbn; lia).
        unfold full. rewrite El, Elf, lm_plus_iff. destruct r as [|b r].
        -- change (levels []) with [@nil Z]. destruct f as [|e f]; cbn [mt].
           ++ split; [intros _|reflexivity]. change (levels []) with [@nil Z]. split; [repeat constructor|].
              intros G. inversion G as [? ? ? K|? ? ? ? K]; subst; [destruct K as [[? ?]|[? K]]; [discriminate|congruence]|].
              inversion K; subst. match goal with H : gapL _ [] |- _ => now apply gap_nil_r in H end.
           ++ split; [discriminate|]. intros [_ G]. exfalso. apply G. constructor. right. split; [reflexivity|].
              intros K. apply levels_empty in K. discriminate.
        -- destruct (IH f ltac:(cbn; lia) (b :: r) Hpr ltac:(discriminate)) as [K _]. rewrite K. unfold full.
           assert (gapL (x :: levels (b :: r)) ([43] :: levels f) <-> gapL (levels (b :: r)) (levels f)); [|tauto].
           split; [|now constructor]. intros G. inversion G as [? ? ? K'|? ? ? ? K']; subst; [|exact K'].
           change (levels (b :: r) = [] /\ levels f = [[35]] \/ levels (b :: r) = [[]] /\ levels f <> [[]]) in K'.
           destruct K' as [[K' _]|[K' _]]; [destruct (levels_cons (b :: r)) as (? & ? & E); congruence|apply levels_empty in K'; discriminate].
    + cbn [andb]. destruct (c =? 35) eqn:E35.
      * assert (c = 35) as -> by lia. destruct f as [|d f]; cbn [andb].
        -- split; [intros _; apply full_hash|reflexivity].
        -- split; [discriminate|]. intros F. exfalso. destruct (Z.eq_dec d 47) as [->|Hd].
           ++ destruct F as [H _]. change (35 :: 47 :: f) with ([35] ++ 47 :: f) in H. rewrite levels_app in H by (cbn; lia).
              destruct (levels_cons f) as (l & ls & E). destruct (levels_cons (a :: n)) as (l0 & ls0 & E0). rewrite E, E0 in H.
              inversion H; subst. destruct Hp as [_ Hp]. apply Hp. apply (levels_in (a :: n) [35]); [rewrite E0; now left|now left].
           ++ revert F. apply full_bad_wild; auto.
      * split; [discriminate|]. intros F. exfalso. revert F. apply full_mismatch; auto; lia.
Qed.

(** ** strncmp on names without NUL *)
Lemma strncmp_exact a b x y : ~ In 0 a -> length a = length b ->
  strncmp_eq (a ++ x) (b ++ y) (length a) = Ok true <-> a = b.
Proof.
  revert b. induction a as [|c a IH]; intros [|d b] H0 HL; try discriminate; cbn [app length strncmp_eq].
  - split; reflexivity.
  - destruct (c =? d) eqn:E.
    + assert (d = c) as -> by lia. replace (c =? 0) with false by (cbn in H0; lia).
      rewrite IH; [|cbn in H0; tauto|cbn in HL; lia]. split; congruence.
    + split; [discriminate|]. intros K. injection K as -> _. lia.
Qed.
Lemma strncmp_ok a b x y : ~ In 0 a -> length a = length b -> exists r, strncmp_eq (a ++ x) (b ++ y) (length a) = Ok r.
Proof.
  revert b. induction a as [|c a IH]; intros [|d b] H0 HL; try discriminate; cbn [app length strncmp_eq]; [eauto|].
  destruct (c =? d); [|eauto]. destruct (c =? 0); [eauto|]. apply IH; cbn in *; tauto || lia.
Qed.
Lemma strncmp_any a b x y : length a = length b -> exists r, strncmp_eq (a ++ x) (b ++ y) (length a) = Ok r.
Proof.
  revert b. induction a as [|c a IH]; intros [|d b] HL; try discriminate; cbn [app length strncmp_eq]; [eauto|].
  destruct (c =? d); [|eauto]. destruct (c =? 0); [eauto|]. apply IH; cbn in *; lia.
Qed.

Lemma filter_eq n f xn xf : 0 < zlen n < 65536 -> 0 < zlen f < 65536 ->
  matchTopicFilter (n ++ xn) (zlen n) (f ++ xf) (zlen f) = Ok (mt true n f).
Proof.
  intros Hn Hf. unfold matchTopicFilter, rassert. replace (negb (zlen n =? 0)) with true by lia. replace (negb (zlen f =? 0)) with true by lia.
  destruct (loop_mt f [] [] n xn xf (S (Z.to_nat (zlen f)))) as (m & ni & fi & E & Em); cbn [app]; try lia; [unfold zlen; lia|].
  cbn [app] in E, Em. rewrite zlen_nil' in E. rewrite E. cbn [rbind pv_of] in *. now rewrite Em.
Qed.

Definition first_is (l : list Z) (c : Z) : bool := match l with x :: _ => x =? c | [] => false end.
Definition dollar (n f : list Z) : bool := first_is n 36 && (first_is f 43 || first_is f 35).
Lemma dollar_iff n f : dollar n f = true <-> dollar_excluded n f.
Proof.
  unfold dollar, dollar_excluded, first_is. rewrite andb_true_iff, orb_true_iff.
  destruct n as [|a n], f as [|c f]; cbn [hd_error]; rewrite ?Z.eqb_eq; intuition (discriminate || congruence).
Qed.

Definition topic_fun (n f : list Z) : R bool :=
  let! m := if zlen n =? zlen f then strncmp_eq n f (length n) else Ok false in
  Ok (m || (negb (dollar n f) && mt true n f)).
Lemma strncmp_app a b x y : length a = length b ->
  strncmp_eq (a ++ x) (b ++ y) (length a) = strncmp_eq a b (length a).
Proof.
  revert b. induction a as [|c a IH]; intros [|d b] HL; try discriminate; cbn [app length strncmp_eq]; [reflexivity|].
  destruct (c =? d); [|reflexivity]. destruct (c =? 0); [reflexivity|]. apply IH. cbn in HL. lia.
Qed.
Lemma matchTopic_eq n f xn xf : 0 < zlen n < 65536 -> 0 < zlen f < 65536 ->
  exists b, matchTopic (Some (n ++ xn)) (zlen n) (Some (f ++ xf)) (zlen f) = Ok (Success, Some b) /\ topic_fun n f = Ok b.
Proof.
  intros Hn Hf. unfold matchTopic. replace (zlen n =? 0) with false by lia. replace (zlen f =? 0) with false by lia.
  assert (Es : exists m, (if zlen n =? zlen f then strncmp_eq (n ++ xn) (f ++ xf) (Z.to_nat (zlen n)) else Ok false) = Ok m /\
                  (if zlen n =? zlen f then strncmp_eq n f (length n) else Ok false) = Ok m).
  { destruct (zlen n =? zlen f) eqn:E; [|eauto]. assert (HL : length n = length f) by (unfold zlen in E; lia).
    unfold zlen. rewrite Nat2Z.id. rewrite strncmp_app by exact HL. destruct (strncmp_any n f [] [] HL) as [r Hr].
    rewrite strncmp_app in Hr by exact HL. eauto. }
  destruct Es as (m & E1 & E2). rewrite E1. unfold topic_fun. rewrite E2. cbn [rbind].
  destruct m; [exists true; cbn [rbind orb]; auto|].
  destruct n as [|a n]; [cbn in Hn; lia|]. destruct f as [|c f]; [cbn in Hf; lia|].
  change ((c :: f) ++ xf) with (([] ++ c :: f) ++ xf). change ((a :: n) ++ xn) with (([] ++ a :: n) ++ xn).
  change 0 with (zlen (@nil Z)) at 1 2. rewrite !rd_at. cbn [rbind app orb].
  unfold dollar, first_is, DOLLAR, PLUS, HASH.
  destruct ((a =? 36) && ((c =? 43) || (c =? 35))); cbn [negb andb].
  - exists false. auto.
  - change (a :: n ++ xn) with ((a :: n) ++ xn). change (c :: f ++ xf) with ((c :: f) ++ xf).
    rewrite filter_eq by assumption. cbn [rbind]. eauto.
Qed.

(** for valid names: exact characterisation *)
Lemma full_refl n : plain n -> full n n.
Proof.
  intros Hp. assert (K : forall l, In l (levels n) -> l <> [43]).
  { intros l Hl ->. destruct Hp as [Hp _]. apply Hp. apply (levels_in n [43]); [exact Hl|now left]. }
  unfold full. revert K. generalize (levels n). clear. intros ls K. split.
  - induction ls as [|l ls IH]; constructor. apply IH. intros l' Hl. apply K. now right.
  - induction ls as [|l ls IH]; intros G; inversion G; subst.
    + apply (K [43]); [now left|reflexivity].
    + apply IH; [intros l' Hl; apply K; now right|assumption].
Qed.
Lemma topic_exact n f : valid_name n -> 0 < zlen f < 65536 ->
  (topic_fun n f = Ok true <-> topic_matches n f /\ ~ plus_gap n f).
Proof.
  intros (Hn & Hp1 & Hp2 & H0) Hf. assert (Hp : plain n) by (split; assumption).
  assert (Hne : n <> []) by (intros ->; cbn in Hn; lia).
  unfold topic_fun, topic_matches. rewrite plus_gap_iff.
  destruct (mt_spec f n Hp Hne) as [M _]. unfold full in M.
  assert (D : forall g, dollar n g = true -> hd_error g = Some 43 \/ hd_error g = Some 35) by (intros g K; apply dollar_iff in K; apply K).
  assert (Dn : dollar n n = false).
  { destruct (dollar n n) eqn:E; [|reflexivity]. apply D in E. destruct n as [|a n]; [congruence|]. cbn in E, Hp1, Hp2. exfalso.
    destruct E as [E|E]; injection E as ->; tauto. }
  assert (G : negb (dollar n f) && mt true n f = true <-> (lmatch (levels n) (levels f) /\ ~ dollar_excluded n f) /\ ~ gapL (levels n) (levels f)).
  { rewrite andb_true_iff, negb_true_iff, M. rewrite <- dollar_iff. destruct (dollar n f); intuition discriminate. }
  destruct (zlen n =? zlen f) eqn:EL.
  - assert (HL : length n = length f) by (unfold zlen in EL; lia).
    destruct (strncmp_any n f [] [] HL) as [r Hr]. rewrite strncmp_app in Hr by exact HL. rewrite Hr. cbn [rbind].
    destruct r; cbn [orb].
    + assert (n = f) as <-. { apply (strncmp_exact n f [] [] H0 HL). rewrite strncmp_app by exact HL. exact Hr. }
      split; [intros _|reflexivity]. destruct (full_refl n Hp) as [F1 F2]. repeat split; try assumption.
      rewrite <- dollar_iff, Dn. discriminate.
    + rewrite <- G. split; [intros K; now injection K|intros ->; reflexivity].
  - cbn [rbind orb]. rewrite <- G. split; [intros K; now injection K|intros ->; reflexivity].
Qed.

Lemma mem_split (m : list Z) len : 0 <= len <= zlen m -> exists s x, m = s ++ x /\ zlen s = len /\ s = firstn (Z.to_nat len) m.
Proof.
  intros H. exists (firstn (Z.to_nat len) m), (skipn (Z.to_nat len) m). split; [now rewrite firstn_skipn|].
  split; [|reflexivity]. unfold zlen in *. rewrite firstn_length. lia.
Qed.
Lemma topic_safe mn nl mf fl : 0 < nl < 65536 -> 0 < fl < 65536 -> nl <= zlen mn -> fl <= zlen mf ->
  exists b, matchTopic (Some mn) nl (Some mf) fl = Ok (Success, Some b) /\
    forall mn' mf', nl <= zlen mn' -> fl <= zlen mf' ->
      firstn (Z.to_nat nl) mn' = firstn (Z.to_nat nl) mn -> firstn (Z.to_nat fl) mf' = firstn (Z.to_nat fl) mf ->
      matchTopic (Some mn') nl (Some mf') fl = Ok (Success, Some b).
Proof.
  intros Hn Hf Ln Lf.
  destruct (mem_split mn nl ltac:(lia)) as (n & xn & En & <- & Fn). destruct (mem_split mf fl ltac:(lia)) as (f & xf & Ef & <- & Ff).
  destruct (matchTopic_eq n f xn xf Hn Hf) as (b & E & Eb). exists b. rewrite En, Ef. split; [exact E|].
  intros mn' mf' Ln' Lf' K1 K2. rewrite <- En, <- Fn in K1. rewrite <- Ef, <- Ff in K2.
  destruct (mem_split mn' (zlen n) ltac:(lia)) as (n' & xn' & -> & _ & Fn'). rewrite K1 in Fn'. subst n'.
  destruct (mem_split mf' (zlen f) ltac:(lia)) as (f' & xf' & -> & _ & Ff'). rewrite K2 in Ff'. subst f'.
  destruct (matchTopic_eq n f xn' xf' Hn Hf) as (b' & E' & Eb'). congruence.
Qed.
Lemma topic_iff n f xn xf : valid_name n -> 0 < zlen f < 65536 ->
  (matchTopic (Some (n ++ xn)) (zlen n) (Some (f ++ xf)) (zlen f) = Ok (Success, Some true) <->
   topic_matches n f /\ ~ plus_gap n f).
Proof.
  intros Hn Hf. rewrite <- topic_exact by assumption. destruct Hn as [Hn _].
  destruct (matchTopic_eq n f xn xf Hn Hf) as (b & E & Eb). rewrite E, Eb. split; intros K; injection K as ->; reflexivity.
Qed.
Lemma topic_iff' n f : valid_name n -> 0 < zlen f < 65536 ->
  (matchTopic (Some n) (zlen n) (Some f) (zlen f) = Ok (Success, Some true) <->
   topic_matches n f /\ ~ plus_gap n f).
Proof. intros Hn Hf. rewrite <- (app_nil_r n) at 1. rewrite <- (app_nil_r f) at 1. now apply topic_iff. Qed.
Lemma topic_sound n f : valid_name n -> 0 < zlen f < 65536 ->
  matchTopic (Some n) (zlen n) (Some f) (zlen f) = Ok (Success, Some true) -> topic_matches n f.
Proof. intros Hn Hf K. now apply topic_iff' in K. Qed.
Lemma topic_complete n f : valid_name n -> valid_filter f -> topic_matches n f -> ~ plus_gap n f ->
  matchTopic (Some n) (zlen n) (Some f) (zlen f) = Ok (Success, Some true).
Proof. intros Hn [Hf _] H G. apply topic_iff'; auto. Qed.
Lemma topic_gap_missed n f : valid_name n -> valid_filter f -> plus_gap n f ->
  matchTopic (Some n) (zlen n) (Some f) (zlen f) = Ok (Success, Some false).
Proof.
  intros Hn [Hf _] G. assert (Hz : 0 < zlen n < 65536) by apply Hn.
  destruct (matchTopic_eq n f [] [] Hz Hf) as (b & E & _). rewrite !app_nil_r in E. rewrite E.
  destruct b; [|reflexivity]. apply topic_iff' in E; auto. tauto.
Qed.
Lemma no_plus_no_gap n f : ~ In 43 f -> ~ plus_gap n f.
Proof.
  intros H (ns & x & nr & fs & fr & _ & E & _). apply H. apply (levels_in f [43]); [rewrite E; apply in_elt|now left].
Qed.
Lemma topic_refused n nl f fl : n = None \/ nl = 0 \/ f = None \/ fl = 0 -> matchTopic n nl f fl = Ok (BadParameter, None).
Proof.
  unfold matchTopic. destruct n as [n|]; [|reflexivity]. destruct (nl =? 0) eqn:E; [reflexivity|].
  destruct f as [f|]; [|reflexivity]. destruct (fl =? 0) eqn:E'; [reflexivity|]. intros [H|[H|[H|H]]]; discriminate || lia.
Qed.
Lemma valid_small f : 0 < zlen f < 65536 -> ~ In 0 f ->
  (forall i, (i < length (levels f))%nat -> match nth_error (levels f) i with
     | Some l => (In 43 l -> l = [43]) /\ (In 35 l -> l = [35] /\ S i = length (levels f)) | None => True end) -> valid_filter f.
Proof.
  intros H1 H2 H3. split; [exact H1|]. split; [exact H2|]. intros i l H.
  assert (Hi : (i < length (levels f))%nat) by (apply nth_error_Some; congruence). specialize (H3 i Hi). now rewrite H in H3.
Qed.
Lemma topic_incomplete : exists n1 f1 n2 f2,
    (valid_name n1 /\ valid_filter f1 /\ topic_matches n1 f1 /\
     matchTopic (Some n1) (zlen n1) (Some f1) (zlen f1) = Ok (Success, Some false)) /\
    (valid_name n2 /\ valid_filter f2 /\ topic_matches n2 f2 /\
     matchTopic (Some n2) (zlen n2) (Some f2) (zlen f2) = Ok (Success, Some false)).
Proof.
  assert (V : forall n, n = [97] \/ n = [97; 47] -> valid_name n).
  { intros n [->| ->]; unfold valid_name; cbn; lia. }
  assert (W : forall f, f = [43; 47; 35] \/ f = [43; 47; 43] -> valid_filter f).
  { intros f [->| ->]; (apply valid_small; [cbn; lia|cbn; lia|]); intros [|[|i]] Hi; cbn in *; try lia; intuition (discriminate || reflexivity || lia). }
  exists [97], [43; 47; 35], [97; 47], [43; 47; 43].
  split; (split; [apply V; auto|]; split; [apply W; auto|]; split; [|reflexivity]);
    (split; [cbn; repeat constructor|intros [K _]; discriminate]).
Qed.

(** Names and filters that may contain NUL. *)
Lemma strncmp_nul a b : length a = length b ->
  (strncmp_eq a b (length a) = Ok true <-> a = b \/ same_up_to_nul a b).
Proof.
  revert b. induction a as [|c a IH]; intros [|d b] HL; try discriminate; cbn [length strncmp_eq].
  - split; [auto|reflexivity].
  - cbn in HL. destruct (c =? d) eqn:E.
    + assert (d = c) as -> by lia. destruct (c =? 0) eqn:E0.
      * assert (c = 0) as -> by lia. split; [intros _|reflexivity]. right. exists [], a, b. repeat split. lia.
      * rewrite IH by lia. split.
        -- intros [->|(p & n & f & -> & -> & H)]; [now left|right]. exists (c :: p), n, f. auto.
        -- intros [K|(p & n & f & K1 & K2 & H)]; [left; congruence|].
           destruct p as [|x p]; cbn in K1, K2; [injection K1; lia|].
           right. exists p, n, f. split; [congruence|]. split; [congruence|exact H].
    + split; [discriminate|]. intros [K|(p & n & f & K1 & K2 & H)]; [injection K; lia|].
      destruct p as [|x p]; cbn in K1, K2; injection K1; injection K2; lia.
Qed.
Lemma same_up_to_nul_length n f : same_up_to_nul n f -> length n = length f.
Proof. intros (p & a & b & -> & -> & H). rewrite !app_length. cbn [length]. lia. Qed.
Lemma topic_nul n f : 0 < zlen n < 65536 -> ~ In 43 n -> ~ In 35 n -> 0 < zlen f < 65536 ->
  (matchTopic (Some n) (zlen n) (Some f) (zlen f) = Ok (Success, Some true) <->
   (topic_matches n f /\ ~ plus_gap n f) \/ same_up_to_nul n f).
Proof.
  intros Hn Hp1 Hp2 Hf. destruct (matchTopic_eq n f [] [] Hn Hf) as (b & E & Eb). rewrite !app_nil_r in E.
  assert (T : topic_fun n f = Ok true <-> (topic_matches n f /\ ~ plus_gap n f) \/ same_up_to_nul n f).
  2: { rewrite E, <- T, Eb. split; intros K; injection K as ->; reflexivity. }
  clear b E Eb. assert (Hp : plain n) by (split; assumption).
  assert (Hne : n <> []) by (intros ->; cbn in Hn; lia).
  unfold topic_fun, topic_matches. rewrite plus_gap_iff.
  destruct (mt_spec f n Hp Hne) as [M _]. unfold full in M.
  assert (D : forall g, dollar n g = true -> hd_error g = Some 43 \/ hd_error g = Some 35) by (intros g K; apply dollar_iff in K; apply K).
  assert (Dn : dollar n n = false).
  { destruct (dollar n n) eqn:E; [|reflexivity]. apply D in E. destruct n as [|a n]; [congruence|]. cbn in E, Hp1, Hp2. exfalso.
    destruct E as [E|E]; injection E as ->; tauto. }
  assert (G : negb (dollar n f) && mt true n f = true <-> (lmatch (levels n) (levels f) /\ ~ dollar_excluded n f) /\ ~ gapL (levels n) (levels f)).
  { rewrite andb_true_iff, negb_true_iff, M. rewrite <- dollar_iff. destruct (dollar n f); intuition discriminate. }
  destruct (zlen n =? zlen f) eqn:EL.
  - assert (HL : length n = length f) by (unfold zlen in EL; lia).
    destruct (strncmp_any n f [] [] HL) as [r Hr]. rewrite strncmp_app in Hr by exact HL. rewrite Hr. cbn [rbind].
    pose proof (strncmp_nul n f HL) as S. rewrite Hr in S. destruct r; cbn [orb].
    + split; [intros _|reflexivity]. destruct (proj1 S eq_refl) as [<-|K]; [left|now right].
      destruct (full_refl n Hp) as [F1 F2]. repeat split; try assumption. rewrite <- dollar_iff, Dn. discriminate.
    + rewrite <- G. split; [intros K; left; now injection K|]. intros [->|K]; [reflexivity|].
      assert (Ok false = Ok true) by (apply S; now right). discriminate.
  - cbn [rbind orb]. rewrite <- G. split; [intros K; left; now injection K|]. intros [->|K]; [reflexivity|].
    apply same_up_to_nul_length in K. unfold zlen in EL. lia.
Qed.
Lemma topic_nul_false : exists n f, 0 < zlen n < 65536 /\ ~ In 43 n /\ ~ In 35 n /\ 0 < zlen f < 65536 /\
  ~ topic_matches n f /\ matchTopic (Some n) (zlen n) (Some f) (zlen f) = Ok (Success, Some true).
Proof.
  exists [97; 0; 98], [97; 0; 99]. split; [cbn; lia|]. split; [cbn; lia|]. split; [cbn; lia|]. split; [cbn; lia|].
  split; [|reflexivity]. intros [K _]. cbn in K. inversion K; subst; discriminate.
Qed.
