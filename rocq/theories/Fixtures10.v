(** Sessions with the indexer, for the examples of C61 and C62. *)
From Coq Require Import Ascii.
From stdpp Require Import base list strings gmap.
From Coq Require Import ZArith Lia.
From Verif Require Import GoStr PathModel InventoryModel ObjectModel InventorySpec ObjectSpec CrashSpec LoadModel AreaModel AreaSpec ValidateModel PublishSpec
  Fixtures Fixtures2 Fixtures3 Fixtures5 Fixtures8 JsonlModel JsonlSpec JsonlProofs2.

(** Packed data begins with a letter. *)
Definition strip (c : ascii) (s : string) : option string := match s with String d r => if decide (c = d) then Some r else None | "" => None end.
Definition zc : JsonlModel.codec := JsonlModel.Codec (String "b"%char) (strip "b"%char) (String "g"%char) (strip "g"%char).
Lemma zc_ok : codec_ok zc.
Proof. intros t. by split; cbn; rewrite decide_True. Qed.
(** Results are truth values; a line is the digit of the result and the path. *)
Definition lb : printer bool := Printer (λ p (r : bool), String (if r then "1"%char else "0"%char) p)
  (λ t, match t with String c p => if decide (c = "1"%char) then Some (p, true) else if decide (c = "0"%char) then Some (p, false) else None | "" => None end).
Lemma lb_ok : printer_ok one_line lb.
Proof.
  intros p r [H1 H2]. split; [by destruct r|]. split.
  - cbn [l_print lb str_mem]. by destruct r.
  - intros u. cbn [l_print lb]. destruct u as [|c u]; [by destruct r|]. rewrite str_app_cons. intros [= _ Hp]. by apply (H2 u).
Qed.
(** Empty files have no result; for others, whether they are short. *)
Definition short (exts : list string) (data : string) : option bool :=
  if decide (data = "") then None else Some (bool_decide (String.length data < 3)).
Definition one_lineb (t : string) : bool := negb (str_mem nl t) && bool_decide (last (list_ascii_of_string t) ≠ Some cr).
Lemma one_lineb_true t : one_lineb t = true → one_line t.
Proof.
  intros [H1 H2]%andb_prop. apply bool_decide_eq_true in H2. split; [by destruct (str_mem nl t)|]. intros u ->. apply H2.
  assert (list_ascii_of_string (u +:+ String cr "") = list_ascii_of_string u ++ [cr]) as ->.
  { clear. induction u as [|c u IH]; [done|]. rewrite str_app_cons. cbn [list_ascii_of_string]. by rewrite IH. }
  by rewrite last_snoc.
Qed.

(** Calls; with [check], their guards are checked. *)
Definition targetb (E : env) (p area : string) (o : object) : bool :=
  match e_manifest_path E p area with
  | Some m => clean_relb m && man_freshb (ob_inv o) (manifest_name (ob_inv o) m)
  | None => true
  end.
Lemma targetb_true E p area o : targetb E p area o = true → ∀ m, e_manifest_path E p area = Some m →
  clean_rel m ∧ ∀ d, ¬ lists (inv_manifest (ob_inv o)) (manifest_name (ob_inv o) m) d.
Proof.
  intros H m Hm. unfold targetb in H. rewrite Hm in H. apply andb_prop in H as [H1 H2].
  split; [by apply clean_relb_true|]. intros d. by apply man_freshb_true.
Qed.
Definition guardb (E : env) (op : sop) (o : object) : bool :=
  match op with
  | SAdd _ p area _ | SAddReader _ (p :: _) area => targetb E p area o
  | _ => true
  end.
Lemma guardb_true E op o : guardb E op o = true → proper E dflt op o.
Proof.
  intros H. split; [exact dflt_ok|].
  destruct op as [data p area dd|data [|p ps] area| | |]; try done; (split; intros m Hm; by apply (targetb_true _ _ _ _ H)).
Qed.
Section runs.
  Context (E : env) (Z : JsonlModel.codec) (l : list subpaths) (J : jstore) (index : list string → string → option bool).
  Fixpoint icallsb (check : bool) (ops : list (bool * sop)) (o : object) (x : ixst bool) : option (object * ixst bool) :=
    match ops with
    | [] => Some (o, x)
    | (hook, op) :: ops =>
        if negb check || guardb E op o then
          match istep E index hook dflt op o x with (o', x', SOk) => icallsb check ops o' x' | _ => None end
        else None
    end.
  Lemma icallsb_true ops o x o' x' : icallsb true ops o x = Some (o', x') → icalls E index o x o' x'.
  Proof using.
    revert o x. induction ops as [|[hook op] ops IH]; intros o x; cbn [icallsb negb orb]; [intros [= <- <-]; constructor|].
    destruct (guardb E op o) eqn:Hg; [|done]. destruct (istep E index hook dflt op o x) as [[o1 x1] []] eqn:Hs; [|done..]. intros H.
    eapply icalls_more; [by apply guardb_true|exact Hs|by apply IH].
  Qed.
  Definition sideb (o : object) : bool :=
    match write_target l J (inv_head (ob_inv o)) with
    | JAdd (f :: _) area => targetb E f area o
    | _ => false
    end.
  Lemma sideb_true o : sideb o = true → proper_side Z E l J dflt o.
  Proof using.
    unfold sideb. intros H. split; [exact dflt_ok|]. destruct (write_target l J _) as [[|f fs] area| |]; [done| |done|done].
    intros data. split; intros m Hm; by apply (targetb_true _ _ _ _ H).
  Qed.
  (** The storage, the inventory, the state of the indexer and the lines after a session. *)
  Definition runb (check : bool) (ops1 ops2 ops3 : list (bool * sop)) (s : storage) (i : inventory) : option (storage * inventory * ixst bool * list (string * bool)) :=
    match ob_start "2024-01-01T00:00:00Z" "msg" "me" "mailto:me" false (open_object i) with
    | (o1, SOk) =>
        '(o2, x2) ← icallsb check ops1 o1 ix_new;
        if inv_modified (ob_inv o2) then
          match (if ob_echo o2 then ob_echo_delete E dflt o2 else (o2, SOk)) with
          | (o3, SOk) =>
              '(o4, x4) ← icallsb check ops2 o3 x2;
              if negb check || sideb o4 then
                match ix_after Z lb E l J dflt o4 x4 with
                | (o5, x5, SOk) =>
                    '(o6, x6) ← icallsb check ops3 o5 x5;
                    match on_inv (clean dflt) o6 with
                    | (o7, SOk) =>
                        match store_inventory E true false o7 with
                        | (o8, SOk) =>
                            match ob_close E dflt o8 with
                            | (o9, SOk) =>
                                match ix_buf x4 !! inv_head (ob_inv o4) with
                                | Some lines => if negb check || forallb (λ p : string * bool, one_lineb p.1) lines then
                                                  Some (apply_evs (ob_trace o9) s, ob_inv o9, x6, lines) else None
                                | None => if check then None else Some (apply_evs (ob_trace o9) s, ob_inv o9, x6, [])
                                end
                            | _ => None
                            end
                        | _ => None
                        end
                    | _ => None
                    end
                | _ => None
                end
              else None
          | _ => None
          end
        else None
    | _ => None
    end.
  Lemma runb_true ops1 ops2 ops3 s i s' i' x lines :
    runb true ops1 ops2 ops3 s i = Some (s', i', x, lines) → isession E Z lb l J index one_line s i s' i' lines.
  Proof using.
    unfold runb. cbn [negb orb]. destruct (ob_start _ _ _ _ _ _) as [o1 []] eqn:E1; [|done..]. destruct (icallsb true ops1 o1 ix_new) as [[o2 x2]|] eqn:E2; [|done]. cbn [mbind option_bind].
    destruct (inv_modified _) eqn:E3; [|done]. destruct (if ob_echo o2 then _ else _) as [o3 []] eqn:E4; [|done..].
    destruct (icallsb true ops2 o3 x2) as [[o4 x4]|] eqn:E5; [|done]. cbn [mbind option_bind negb orb]. destruct (sideb o4) eqn:E6; [|done].
    destruct (ix_after Z lb E l J dflt o4 x4) as [[o5 x5] []] eqn:E7; [|done..]. destruct (icallsb true ops3 o5 x5) as [[o6 x6]|] eqn:E8; [|done]. cbn [mbind option_bind negb orb].
    destruct (on_inv (clean dflt) o6) as [o7 []] eqn:E9; [|done..]. destruct (store_inventory E true false o7) as [o8 []] eqn:E10; [|done..].
    destruct (ob_close E dflt o8) as [o9 []] eqn:E11; [|done..]. destruct (ix_buf x4 !! inv_head (ob_inv o4)) as [ls|] eqn:E12; [|intros [=]].
    destruct (forallb _ ls) eqn:E13; [|done]. intros [= <- <- <- <-].
    eapply ISession; [exact E1|by eapply icallsb_true|exact E3|exact E4|by eapply icallsb_true|by apply sideb_true|exact E7|by eapply icallsb_true|exact E9|exact E10|exact E11|done|done|exact E12|].
    rewrite stdpp.list.Forall_forall. intros p Hp. rewrite forallb_forall in E13. apply one_lineb_true, E13. by apply elem_of_list_In.
  Qed.
End runs.

(** Two areas; the indexer keeps its files in the second one, packed. *)
Definition jarea : jstore := JStore "indexer" "brotli" "area" "metadata" "extensions/NNNN-indexer".
Lemma jarea_agrees : agreeing [areas2] jarea.
Proof. eapply agreeing_area; [done|done|by vm_compute|apply clean_relb_true; by vm_compute]. Qed.
Lemma aenv_by : manifest_by aenv [areas2].
Proof. done. Qed.
(** A description of a whole history, for comparing. *)
Definition aload (s : storage) : option inventory := match load_inventory hexh jparse s "" with LInv i [] => Some i | _ => None end.
Lemma aload_true s i : aload s = Some i → load_inventory hexh jparse s "" = LInv i [].
Proof. unfold aload. destruct (load_inventory hexh jparse s "") as [|j [|]]; [done| |done]. by intros [= ->]. Qed.
Definition asup (i : inventory) : bool := bool_decide (inv_alg i ∈ ["sha512"; "md5"]) && forallb (λ a, bool_decide (a ∈ ["sha512"; "md5"])) (inv_fixalgs i).
Lemma asup_true i : asup i = true → supported aenv i.
Proof. exact (supportedb_true jjson i). Qed.
