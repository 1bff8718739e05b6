(** Sessions with thumbnails, for the examples of C72. *)
From Coq Require Import Ascii.
From stdpp Require Import base list strings gmap.
From Coq Require Import ZArith Lia.
From Verif Require Import GoStr PathModel InventoryModel ObjectModel InventorySpec ObjectSpec CrashSpec LoadModel AreaModel AreaSpec ValidateModel ValidateSpec PublishSpec
  Fixtures Fixtures2 Fixtures3 Fixtures5 Fixtures8 JsonlModel JsonlSpec Fixtures10 MetafileModel MigrateModel Fixtures12 ThumbModel ThumbSpec.

(** A line: the parts with bars between them; the lines that can be read back. *)
Definition lt : printer tres := Printer (λ c r, c +:+ "|" +:+ tr_ext r +:+ "|" +:+ tr_error r +:+ "|" +:+ tr_id r +:+ "|" +:+ tr_file r +:+ "|" +:+ tr_digest r)
  (λ t, match split_bar t with [c; a; e; d; f; g] => Some (c, TRes a e d f g) | _ => None end).
Definition barless (c : string) (r : tres) : Prop :=
  l_parse lt (l_print lt c r) = Some (c, r) ∧ one_line (l_print lt c r).
Lemma lt_ok : lines_ok barless lt.
Proof. intros c r H. exact H. Qed.
Global Instance tres_eq : EqDecision tres.
Proof. solve_decision. Defined.
Definition barlessb (p : string * tres) : bool := bool_decide (l_parse lt (l_print lt p.1 p.2) = Some p) && one_lineb (l_print lt p.1 p.2).
Lemma barlessb_true p : barlessb p = true → barless p.1 p.2.
Proof. intros [H1 H2]%andb_prop. apply bool_decide_eq_true in H1. split; [by destruct p|by apply one_lineb_true]. Qed.

(** Calls in a row. *)
Fixpoint sopsb (E : env) (ops : list sop) (o : object) : option object :=
  match ops with
  | [] => Some o
  | op :: ops => if guardb E op o then match sop_step E dflt op o with (o', SOk) => sopsb E ops o' | _ => None end else None
  end.
Lemma sopsb_calls E ops o o' : sopsb E ops o = Some o' → PublishSpec.calls E o o'.
Proof.
  revert o. induction ops as [|op ops IH]; intros o; cbn [sopsb]; [intros [= <-]; constructor|]. destruct (guardb E op o) eqn:Hg; [|done].
  destruct (sop_step E dflt op o) as [o1 []] eqn:Hs; [|done..]. intros H. eapply (calls_more E dflt (OSimple op) o o1 SOk o'); [done|by apply guardb_true|exact Hs|done|by apply IH].
Qed.
Lemma sopsb_sops E ops o o' : sopsb E ops o = Some o' → guarded_sops E (proper E) (HCall dflt <$> ops) o ∧ sops_run E (HCall dflt <$> ops) o = (o', SOk).
Proof.
  revert o. induction ops as [|op ops IH]; intros o; cbn [sopsb]; [intros [= <-]; done|]. destruct (guardb E op o) eqn:Hg; [|done].
  destruct (sop_step E dflt op o) as [o1 []] eqn:Hs; [|done..]. intros H. destruct (IH _ H) as [H1 H2]. cbn [fmap list_fmap guarded_sops sops_run]. rewrite Hs. cbn [after_ok andThen].
  split; [|done]. split; [by apply guardb_true|done].
Qed.
Lemma prefix_app a r : String.prefix a (a +:+ r) = true.
Proof. induction a as [|c a IH]; [by destruct r|]. rewrite str_app_cons. cbn. destruct (ascii_dec c c); [exact IH|done]. Qed.
Definition emptyb (i : inventory) (dir : string) : bool :=
  forallb (λ e : string * string, negb (String.prefix (inv_head i +:+ "/" +:+ content_name i +:+ "/" +:+ dir +:+ "/") e.1)) (listed (inv_manifest i)).
Lemma emptyb_true i dir : emptyb i dir = true → ∀ p d, lists (inv_manifest i) p d → ¬ in_new i dir p.
Proof.
  intros H p d Hl%listed_spec%elem_of_list_In [r ->]. unfold emptyb in H. rewrite forallb_forall in H. apply H in Hl. cbn [fst] in Hl.
  apply negb_true_iff in Hl. rewrite !str_app_assoc in Hl. by rewrite prefix_app in Hl.
Qed.

(** A session, with its storage, inventory, object at the hook and lines. *)
Section runs.
  Context (T : tconf) (J : jstore) (dir : string).
  Definition runt (S : tsur) (idx : gmap string (string * string)) (rnd : nat → N) (ops1 ops2 ops3 : list sop) (s : storage) (i : inventory)
      : option (storage * inventory * object * list (string * tres)) :=
    match ob_start "2024-01-01T00:00:00Z" "msg" "me" "mailto:me" false (open_object i) with
    | (o1, SOk) =>
        o2 ← sopsb aenv ops1 o1;
        if inv_modified (ob_inv o2) then
          match (if ob_echo o2 then ob_echo_delete aenv dflt o2 else (o2, SOk)) with
          | (o3, SOk) =>
              o4 ← sopsb aenv ops2 o3;
              if emptyb (ob_inv o4) dir && sideb aenv [areas2] J o4 then
                match th_after zc lt aenv [areas2] T J S wd s (Some idx) dflt (λ _, dflt) rnd o4 th_new with
                | (o5, x5, SOk) =>
                    o6 ← sopsb aenv ops3 o5;
                    match on_inv (clean dflt) o6 with
                    | (o7, SOk) =>
                        match store_inventory aenv true false o7 with
                        | (o8, SOk) =>
                            match ob_close aenv dflt o8 with
                            | (o9, SOk) =>
                                let lines := default [] (th_buf x5 !! inv_head (ob_inv o4)) in
                                if forallb barlessb lines then Some (apply_evs (ob_trace o9) s, ob_inv o9, o4, lines) else None
                            | _ => None
                            end
                        | _ => None
                        end
                    | _ => None
                    end
                | _ => None
                end
              else None
          | _ => None
          end
        else None
    | _ => None
    end.
  Lemma runt_true S idx rnd ops1 ops2 ops3 s i s' i' o lines :
    runt S idx rnd ops1 ops2 ops3 s i = Some (s', i', o, lines) → tsession aenv zc lt barless [areas2] T J dir S idx s i s' i' o lines.
  Proof using.
    unfold runt. destruct (ob_start _ _ _ _ _ _) as [o1 []] eqn:E1; [|done..]. destruct (sopsb aenv ops1 o1) as [o2|] eqn:E2; [|done]. cbn [mbind option_bind].
    destruct (inv_modified _) eqn:E3; [|done]. destruct (if ob_echo o2 then _ else _) as [o3 []] eqn:E4; [|done..].
    destruct (sopsb aenv ops2 o3) as [o4|] eqn:E5; [|done]. cbn [mbind option_bind]. destruct (emptyb (ob_inv o4) dir) eqn:E6; [|done]. destruct (sideb aenv [areas2] J o4) eqn:E6'; [|done]. cbn [andb].
    destruct (th_after _ _ _ _ _ _ _ _ _ _ _ _ _ o4 _) as [[o5 x5] []] eqn:E7; [|done..]. destruct (sopsb aenv ops3 o5) as [o6|] eqn:E8; [|done]. cbn [mbind option_bind].
    destruct (on_inv (clean dflt) o6) as [o7 []] eqn:E9; [|done..]. destruct (store_inventory aenv true false o7) as [o8 []] eqn:E10; [|done..].
    destruct (ob_close aenv dflt o8) as [o9 []] eqn:E11; [|done..]. cbv zeta. set (ls := default [] _). destruct (forallb barlessb ls) eqn:E13; [|done]. intros [= <- <- <- <-].
    destruct (sopsb_sops _ _ _ _ E5) as [G5 R5]. destruct (sopsb_sops _ _ _ _ E8) as [G8 R8].
    eapply (TSession _ _ _ _ _ _ _ _ _ _ _ _ _ _ _ _ _ _ _ _ _ dflt dflt (λ _, dflt)); [exact E1|by eapply sopsb_calls|exact E3|exact E4|exact G5|exact R5|by apply emptyb_true|by apply sideb_true|intros ?; exact dflt_ok|exact wd_ok|exact E7|reflexivity| |exact G8|exact R8|exact E9|exact E10|exact E11|done|done].
    rewrite stdpp.list.Forall_forall. intros p Hp. rewrite forallb_forall in E13. apply barlessb_true, E13. by apply elem_of_list_In.
  Qed.
  (** Two sessions. *)
  Definition runt2 (S1 S2 : tsur) (idx1 idx2 : gmap string (string * string)) (ops1 ops2 : list sop)
      : option (storage * inventory * list (string * tres) * (storage * inventory * inventory * object * list (string * tres))) :=
    '(s1, i1, o1, l1) ← runt S1 idx1 (λ _, 31%N) ops1 [] [] store0 fresh0;
    i2 ← aload s1;
    if asup fresh0 && asup i2 then
      '(s2, i3, o2, l2) ← runt S2 idx2 (λ k, 16 + N.of_nat k)%N ops2 [SAdd "Z" "z" "metadata" true] [SAddReader "readme" ["README.md"] "full"] s1 i2;
      i4 ← aload s2;
      Some (s1, i2, l1, (s2, i3, i4, o2, l2))
    else None.
  Lemma runt2_true S1 S2 idx1 idx2 ops1 ops2 s1 i2 l1 s2 i3 i4 o2 l2 : runt2 S1 S2 idx1 idx2 ops1 ops2 = Some (s1, i2, l1, (s2, i3, i4, o2, l2)) →
    opened aenv (λ _, True) jparse zc lt barless [areas2] T J dir s1 i2 l1 ∧ tsession aenv zc lt barless [areas2] T J dir S2 idx2 s1 i2 s2 i3 o2 l2 ∧
    thumbed aenv (λ _, True) jparse zc lt barless [areas2] T J dir s2 i3 (l1 ++ l2) ∧ load_inventory (e_hash aenv) jparse s2 "" = LInv i4 [].
  Proof using.
    unfold runt2. destruct (runt S1 _ _ _ _ _ _ _) as [[[[s1' i1] o1] l1']|] eqn:E1; [|done]. cbn [mbind option_bind].
    destruct (aload s1') as [i2'|] eqn:E2; [|done]. cbn [mbind option_bind]. destruct (asup fresh0) eqn:E3; [|done]. destruct (asup i2') eqn:E4; [|done]. cbn [andb].
    destruct (runt S2 _ _ _ _ _ _ _) as [[[[s2' i3'] o2'] l2']|] eqn:E5; [|done]. cbn [mbind option_bind]. destruct (aload s2') as [i4'|] eqn:E6; [|done]. cbn [mbind option_bind].
    intros [= <- <- <- <- <- <- <- <-]. apply runt_true in E1, E5.
    assert (thumbed aenv (λ _, True) jparse zc lt barless [areas2] T J dir s1' i1 l1') as Ht.
    { eapply thumbed_first; [exact fresh0_fresh|exact store0_declared|exact (asup_true fresh0 E3)|exact E1|exact I]. }
    split; [eapply opened_old; [exact Ht|exact (aload_true s1' i2' E2)|exact (asup_true i2' E4)]|]. split; [exact E5|]. split; [|exact (aload_true s2' i4' E6)].
    eapply thumbed_next; [exact Ht|exact (aload_true s1' i2' E2)|exact (asup_true i2' E4)|exact E5|exact I].
  Qed.
End runs.

(** A tool that fails for contents that begin with an X, and one that does not. *)
Definition tool : tfun := TFun "image" (λ ext x, match x with String "X"%char _ => None | _ => Some ("thumb" +:+ ext +:+ ":" +:+ x) end).
Definition tool2 : tfun := TFun "image" (λ ext x, Some ("thumb" +:+ ext +:+ ":" +:+ x)).
Definition tools (f : tfun) : tsur := TSur (λ _, true) None (λ p, mgr_extract_path [areas2] p "") (λ p, if decide (p = "fmt/11") then Some f else None) (λ m, if decide (m = "image/png") then Some f else None).
Definition images (l : list string) : gmap string (string * string) := list_to_map ((λ x, (dig x, ("fmt/11", "image/png"))) <$> l).
Definition single : tconf := TConf "PNG" true.
Definition spread : tconf := TConf "png" false.
Definition jthumb : jstore := JStore "thumbnail" "gzip" "area" "metadata" "extensions/NNNN-thumbnail".
Definition jthumb_ext : jstore := JStore "thumbnail" "gzip" "extension" "data" "extensions/NNNN-thumbnail".
Definition jthumb_upper : jstore := JStore "thumbnail" "gzip" "Area" "metadata" "extensions/NNNN-thumbnail".
