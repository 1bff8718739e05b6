(** Go's lexical path functions ([path.Clean], [path.Join]; [filepath] on a slash platform). *)
From Coq Require Import Ascii.
From stdpp Require Import base list strings.
From Verif Require Import GoStr.

(** The element loop of [path.Clean]: [acc] is the output so far, reversed. *)
Fixpoint clean_comps (rooted : bool) (acc : list string) (l : list string) : list string :=
  match l with
  | [] => rev acc
  | c :: l' =>
      if decide (c = "") then clean_comps rooted acc l'
      else if decide (c = ".") then clean_comps rooted acc l'
      else if decide (c = "..") then
        match acc with
        | [] => if rooted then clean_comps rooted acc l' else clean_comps rooted [".."] l'
        | a :: acc' => if decide (a = "..") then clean_comps rooted (".." :: acc) l'
                       else clean_comps rooted acc' l'
        end
      else clean_comps rooted (c :: acc) l'
  end.

(** [path.Clean]. *)
Definition path_clean (s : string) : string :=
  let rooted := bool_decide (str_head s = Some slash) in
  let body := join_slash (clean_comps rooted [] (split_slash s)) in
  if rooted then String slash body
  else if decide (body = "") then "." else body.

(** [path.Join]: drops leading empty elements, joins with slashes, cleans. *)
Fixpoint path_join (l : list string) : string :=
  match l with
  | [] => ""
  | s :: l' => if decide (s = "") then path_join l' else path_clean (join_slash l)
  end.
