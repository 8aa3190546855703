(** Finding the meaning of given words by calculation (for examples and counterexamples). *)
From Coq Require Import String Ascii List Arith NArith ZArith Bool Lia SpecFloat.
From Verif Require Import GoBase GoBaseFacts A2lIR A2lTokens A2lSpec A2lGrammar.
Import ListNotations.

Section Describe.
  Variable pf : bytes -> option spec_float.

  Definition standsD (stop : string) (ty : ptype) (t : bytes) : option val :=
    match t with
    | [] => None
    | _ =>
        match ty with
        | Text => if reserved t then None else Some (VStr t)
        | Any => if beqb t (b stop) then None else Some (VStr t)
        | Number n => if reserved t then None else readNum pf n t
        | Choice texts => if existsb (fun s => beqb t (b s)) texts then Some (VStr t) else None
        end
    end.

  Fixpoint wordsD (stop : string) (ps : list param) (ts : list bytes) : option (list val * list bytes) :=
    match ps, ts with
    | [], _ => Some ([], ts)
    | p :: ps', t :: ts' =>
        match standsD stop (p_type p) t with
        | Some v => match wordsD stop ps' ts' with Some (vs, r) => Some (v :: vs, r) | None => None end
        | None => None
        end
    | _, [] => None
    end.

  (** repetitions up to a word in [ends] *)
  Fixpoint freeD (n : nat) (stop : string) (ends : list string) (ps : list param) (ts : list bytes) (o : fields) : option (fields * list bytes) :=
    match n with
    | 0 => None
    | S n' => if existsb (fun s => beqb (hd [] ts) (b s)) ends then Some (o, ts)
              else match wordsD stop ps ts with Some (vs, r) => freeD n' stop ends ps r (stores false ps vs o) | None => None end
    end.
  (** [n] repetitions *)
  Fixpoint countD (n : nat) (stop : string) (ps : list param) (ts : list bytes) (o : fields) : option (fields * list bytes) :=
    match n with
    | 0 => Some (o, ts)
    | S n' => match wordsD stop ps ts with Some (vs, r) => countD n' stop ps r (stores (n' =? 0) ps vs o) | None => None end
    end.
  Definition groupD (stop : string) (ends : list string) (g : group) (ts : list bytes) (o : fields) : option (fields * list bytes) :=
    match g with
    | NoGroup => Some (o, ts)
    | Free ps => freeD (S (List.length ts)) stop ends ps ts o
    | Counted c ps => let n := Z.to_nat (fint c o) in
                      if (0 <? fint c o)%Z && (fint c o <? 2 ^ 16)%Z then countD n stop ps ts o else None
    end.

  Definition kwOf (i : item) : string := match i with Item kw _ _ _ => kw end.
  Definition subOf (i : item) : form := match i with Item _ _ _ s => s end.

  Section Parts.
    Variable desc : form -> list bytes -> option (val * list bytes).
    (** the rest begins with [stop] *)
    Fixpoint partsD (n : nat) (its : list item) (stop : string) (ts : list bytes) (o : fields) : option (fields * list bytes) :=
      match n with
      | 0 => None
      | S n' => if beqb (hd [] ts) (b stop) then Some (o, ts)
                else match find (fun i => beqb (hd [] ts) (b (kwOf i))) its with
                     | None => None
                     | Some (Item kw f p sub) =>
                         match desc sub (tl ts) with
                         | None => None
                         | Some (v, r) => if follows sub (hd [] r) then partsD n' its stop r (place_in p f v o) else None
                         end
                     end
      end.
  End Parts.

  Fixpoint describe (n : nat) (f : form) (ts : list bytes) : option (val * list bytes) :=
    match n with
    | 0 => None
    | S n' =>
        match f with
        | Value ty => match ts with t :: r => match standsD "" ty t with Some v => Some (v, r) | None => None end | [] => None end
        | Fixed ps cs => match wordsD "" ps ts with Some (vs, r) => Some (VObj (consts cs (stores true ps vs [])), r) | None => None end
        | Ahead ps gs cs nexts =>
            match wordsD "" ps ts with
            | Some (vs, r) => match groupD "" (match nexts with [] => keywords | _ => nexts end) (Free gs) r (stores true ps vs []) with
                              | Some (o, r') => Some (VObj (consts cs o), r')
                              | None => None
                              end
            | None => None
            end
        | Block ms ps g its stop cs =>
            match wordsD stop ps ts with
            | None => None
            | Some (vs, r) =>
                match groupD stop (stop :: map kwOf its) g r (stores true ps vs (newMaps ms)) with
                | None => None
                | Some (o, r') =>
                    match stop with
                    | EmptyString => None
                    | _ => match partsD (describe n') (S (List.length r')) its stop r' o with
                           | Some (o', r'') => Some (VObj (consts cs o'), tl r'')
                           | None => None
                           end
                    end
                end
            end
        end
    end.

  Lemma standsD_ok : forall stop ty t v, standsD stop ty t = Some v -> stands pf stop ty t v.
  Proof.
    intros stop ty t v H. destruct t as [|c t]; [discriminate|]. split; [discriminate|]. cbn [standsD] in H. destruct ty.
    - destruct (reserved _); [discriminate|]. injection H as <-. auto.
    - destruct (beqb _ _) eqn:E; [discriminate|]. injection H as <-. split; [|reflexivity]. intros Q. rewrite Q, beqb_refl in E. discriminate.
    - destruct (reserved _); [discriminate|]. auto.
    - destruct (existsb _ _) eqn:E; [|discriminate]. injection H as <-. apply existsb_exists in E. destruct E as (s & I & E). apply beqb_eq in E. eauto.
  Qed.

  Lemma wordsD_ok : forall stop ps ts vs r, wordsD stop ps ts = Some (vs, r) -> exists ts1, ts = ts1 ++ r /\ words pf stop ps ts1 vs.
  Proof.
    induction ps as [|p ps IH]; intros ts vs r H.
    - cbn in H. injection H as <- <-. exists []. split; [reflexivity|constructor].
    - destruct ts as [|t ts]; [discriminate|]. cbn [wordsD] in H. destruct (standsD _ _ t) as [v|] eqn:E; [|discriminate].
      destruct (wordsD stop ps ts) as [[vs' r']|] eqn:E'; [|discriminate]. injection H as <- <-.
      destruct (IH _ _ _ E') as (ts1 & -> & W). exists (t :: ts1). split; [reflexivity|]. constructor; [apply standsD_ok; exact E|exact W].
  Qed.

  Lemma freeD_ok : forall stop ends ps n ts o o' r, freeD n stop ends ps ts o = Some (o', r) ->
      exists ts1 k, ts = ts1 ++ r /\ repeats pf stop false ps k ts1 o o'.
  Proof.
    induction n as [|n IH]; intros ts o o' r H; [discriminate|]. cbn [freeD] in H. destruct (existsb _ ends).
    - injection H as <- <-. exists [], 0. split; [reflexivity|constructor].
    - destruct (wordsD stop ps ts) as [[vs r1]|] eqn:E; [|discriminate]. destruct (wordsD_ok _ _ _ _ _ E) as (ts1 & -> & W).
      destruct (IH _ _ _ _ H) as (ts2 & k & -> & R). exists (ts1 ++ ts2), (S k). split; [apply app_assoc|]. econstructor; [exact W|exact R].
  Qed.
  Lemma countD_ok : forall stop ps n ts o o' r, countD n stop ps ts o = Some (o', r) ->
      exists ts1, ts = ts1 ++ r /\ repeats pf stop true ps n ts1 o o'.
  Proof.
    induction n as [|n IH]; intros ts o o' r H; cbn [countD] in H.
    - injection H as <- <-. exists []. split; [reflexivity|constructor].
    - destruct (wordsD stop ps ts) as [[vs r1]|] eqn:E; [|discriminate]. destruct (wordsD_ok _ _ _ _ _ E) as (ts1 & -> & W).
      destruct (IH _ _ _ _ H) as (ts2 & -> & R). exists (ts1 ++ ts2). split; [apply app_assoc|]. econstructor; [exact W|exact R].
  Qed.
  Lemma groupD_ok : forall stop ends g ts o o' r, groupD stop ends g ts o = Some (o', r) ->
      exists ts1, ts = ts1 ++ r /\ repeated pf stop g ts1 o o'.
  Proof.
    intros stop ends [|ps|c ps] ts o o' r H; cbn [groupD] in H.
    - injection H as <- <-. exists []. split; [reflexivity|split; reflexivity].
    - destruct (freeD_ok _ _ _ _ _ _ _ _ H) as (ts1 & k & E & R). exists ts1. split; [exact E|]. exists k. exact R.
    - destruct ((0 <? fint c o)%Z && (fint c o <? 2 ^ 16)%Z) eqn:B; [|discriminate]. apply andb_true_iff in B. destruct B as [B1 B2].
      apply Z.ltb_lt in B1, B2. destruct (countD_ok _ _ _ _ _ _ _ H) as (ts1 & E & R). exists ts1. split; [exact E|].
      exists (Z.to_nat (fint c o)). split; [lia|]. split; [|split; [lia|exact R]].
      apply Nat2Z.inj_lt. rewrite Nat2Z.inj_pow. change (Z.of_nat 2 ^ Z.of_nat 16)%Z with (2 ^ 16)%Z. lia.
  Qed.

  Lemma partsD_ok : forall desc, (forall f ts v r, desc f ts = Some (v, r) -> exists ts1, ts = ts1 ++ r /\ den pf f ts1 v) ->
      forall its stop, stop <> ""%string -> forall n ts o o' r, partsD desc n its stop ts o = Some (o', r) ->
      exists ts1, ts = ts1 ++ r /\ hd [] r = b stop /\ parts pf its stop ts1 o o'.
  Proof.
    intros desc D its stop SN. induction n as [|n IH]; intros ts o o' r H; [discriminate|]. cbn [partsD] in H.
    destruct (beqb (hd [] ts) (b stop)) eqn:E.
    - injection H as <- <-. apply beqb_eq in E. exists []. split; [reflexivity|]. split; [exact E|constructor].
    - destruct (find _ its) as [[kw f p sub]|] eqn:F; [|discriminate]. apply find_some in F. destruct F as [FI FE]. cbn [kwOf] in FE. apply beqb_eq in FE.
      destruct (desc sub (tl ts)) as [[v r1]|] eqn:DE; [|discriminate]. destruct (follows sub (hd [] r1)) eqn:FO; [|discriminate].
      destruct (D _ _ _ _ DE) as (ts1 & ET & DN). destruct (IH _ _ _ _ H) as (ts2 & -> & HS & P).
      destruct ts as [|t ts].
      + cbn in ET. destruct ts1; [|discriminate]. destruct ts2; [|discriminate]. destruct r; [|discriminate]. cbn in HS.
        destruct stop; [congruence|discriminate HS].
      + cbn in FE, ET. subst t ts. exists (b kw :: ts1 ++ ts2). split; [cbn; rewrite <- app_assoc; reflexivity|]. split; [exact HS|].
        econstructor; [exact FI|exact DN| |exact P]. replace (hd (b stop) ts2) with (hd [] (ts2 ++ r)); [exact FO|].
        destruct ts2; [exact HS|reflexivity].
  Qed.

  Theorem describe_ok : forall n f ts v r, describe n f ts = Some (v, r) -> exists ts1, ts = ts1 ++ r /\ den pf f ts1 v.
  Proof.
    induction n as [|n IH]; intros f ts v r H; [discriminate|]. cbn [describe] in H. destruct f as [ty|ps cs|ps gs cs nexts|ms ps g its stop cs].
    - destruct ts as [|t ts]; [discriminate|]. destruct (standsD "" ty t) eqn:E; [|discriminate]. injection H as <- <-.
      exists [t]. split; [reflexivity|]. constructor. apply standsD_ok. exact E.
    - destruct (wordsD "" ps ts) as [[vs r1]|] eqn:E; [|discriminate]. injection H as <- <-. destruct (wordsD_ok _ _ _ _ _ E) as (ts1 & -> & W).
      exists ts1. split; [reflexivity|]. constructor. exact W.
    - destruct (wordsD "" ps ts) as [[vs r1]|] eqn:E; [|discriminate]. destruct (groupD _ _ _ r1 _) as [[o r2]|] eqn:E' in H; [|discriminate].
      injection H as <- <-. destruct (wordsD_ok _ _ _ _ _ E) as (ts1 & -> & W). destruct (groupD_ok _ _ _ _ _ _ _ E') as (ts2 & -> & R).
      exists (ts1 ++ ts2). split; [apply app_assoc|]. econstructor; [exact W|exact R].
    - destruct (wordsD stop ps ts) as [[vs r1]|] eqn:E; [|discriminate]. destruct (groupD _ _ g r1 _) as [[o r2]|] eqn:E' in H; [|discriminate].
      assert (SN : stop <> ""%string) by (intros ->; discriminate H).
      assert (H' : match partsD (describe n) (S (List.length r2)) its stop r2 o with
                   | Some (o', r'') => Some (VObj (consts cs o'), tl r'') | None => None end = Some (v, r)) by (destruct stop; [congruence|exact H]).
      clear H. destruct (partsD _ _ its stop r2 o) as [[o' r3]|] eqn:E''; [|discriminate]. injection H' as <- <-.
      destruct (wordsD_ok _ _ _ _ _ E) as (ts1 & -> & W). destruct (groupD_ok _ _ _ _ _ _ _ E') as (ts2 & -> & R).
      destruct (partsD_ok _ IH _ _ SN _ _ _ _ _ E'') as (ts3 & -> & HS & P).
      exists (ts1 ++ ts2 ++ ts3 ++ [b stop]). split.
      + destruct r3 as [|t r3]; [cbn in HS; destruct stop; [congruence|discriminate HS]|]. cbn in HS. subst t. cbn [tl].
        rewrite <- !app_assoc. reflexivity.
      + econstructor; [exact W|exact R|exact P].
  Qed.
End Describe.
