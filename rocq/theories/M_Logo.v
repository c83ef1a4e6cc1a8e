(* M_Logo.v : model of /repo/src/wulfric/_package_info.py, the function logo.
   A python string is a list of code points (the logo is drawn with box characters). *)
From Coq Require Import NArith.
From Verif Require Import Base.
Open Scope nat_scope.

(* [/repo/src/wulfric/_package_info.py:88] strings are lists of code points *)
Definition text := list N.
(* "\n" and " " [/repo/src/wulfric/_package_info.py:133, 147] *)
Definition newline : N := 10%N.
(* /repo/src/wulfric/_package_info.py:133 *)
Definition space : N := 32%N.
(* an ASCII literal [/repo/src/wulfric/_package_info.py:74-78] *)
Definition ascii_text (s : string) : text := map Ascii.N_of_ascii (list_ascii_of_string s).

(* /repo/src/wulfric/_package_info.py:87-94 *)
Definition logo_art : list text := [
  [9608; 9608; 9559; 32; 32; 32; 32; 32; 32; 9608; 9608; 9559; 32; 9608; 9608; 9559; 32; 32; 32; 9608; 9608; 9559; 32; 9608; 9608; 9559; 32; 32; 32; 32; 32; 32; 9608; 9608; 9608; 9608; 9608; 9608; 9608; 9559; 32; 9608; 9608; 9608; 9608; 9608; 9608; 9559; 32; 32; 9608; 9608; 9559; 32; 32; 9608; 9608; 9608; 9608; 9608; 9608; 9559];
  [9608; 9608; 9553; 32; 32; 32; 32; 32; 32; 9608; 9608; 9553; 32; 9608; 9608; 9553; 32; 32; 32; 9608; 9608; 9553; 32; 9608; 9608; 9553; 32; 32; 32; 32; 32; 32; 9608; 9608; 9556; 9552; 9552; 9552; 9552; 9565; 32; 9608; 9608; 9556; 9552; 9552; 9608; 9608; 9559; 32; 9608; 9608; 9553; 32; 9608; 9608; 9556; 9552; 9552; 9552; 9552; 9565];
  [9608; 9608; 9553; 32; 32; 9608; 9559; 32; 32; 9608; 9608; 9553; 32; 9608; 9608; 9553; 32; 32; 32; 9608; 9608; 9553; 32; 9608; 9608; 9553; 32; 32; 32; 32; 32; 32; 9608; 9608; 9608; 9608; 9608; 9559; 32; 32; 32; 9608; 9608; 9608; 9608; 9608; 9608; 9556; 9565; 32; 9608; 9608; 9553; 32; 9608; 9608; 9553; 32; 32; 32; 32; 32];
  [9608; 9608; 9553; 32; 9608; 9608; 9608; 9559; 32; 9608; 9608; 9553; 32; 9608; 9608; 9553; 32; 32; 32; 9608; 9608; 9553; 32; 9608; 9608; 9553; 32; 32; 32; 32; 32; 32; 9608; 9608; 9556; 9552; 9552; 9565; 32; 32; 32; 9608; 9608; 9556; 9552; 9552; 9608; 9608; 9559; 32; 9608; 9608; 9553; 32; 9608; 9608; 9553; 32; 32; 32; 32; 32];
  [9562; 9608; 9608; 9608; 9556; 9552; 9552; 9608; 9608; 9608; 9556; 9565; 32; 9562; 9608; 9608; 9608; 9608; 9608; 9608; 9556; 9565; 32; 9608; 9608; 9608; 9608; 9608; 9608; 9608; 9559; 32; 9608; 9608; 9553; 32; 32; 32; 32; 32; 32; 9608; 9608; 9553; 32; 32; 9608; 9608; 9553; 32; 9608; 9608; 9553; 32; 9562; 9608; 9608; 9608; 9608; 9608; 9608; 9559];
  [32; 9562; 9552; 9552; 9565; 32; 32; 9562; 9552; 9552; 9565; 32; 32; 32; 9562; 9552; 9552; 9552; 9552; 9552; 9565; 32; 32; 9562; 9552; 9552; 9552; 9552; 9552; 9552; 9565; 32; 9562; 9552; 9565; 32; 32; 32; 32; 32; 32; 9562; 9552; 9565; 32; 32; 9562; 9552; 9565; 32; 9562; 9552; 9565; 32; 32; 9562; 9552; 9552; 9552; 9552; 9552; 9565]]%N.
(* /repo/src/wulfric/_package_info.py:95-102 *)
Definition flat_art : list text := [
  [9608; 9608; 32; 32; 32; 32; 32; 32; 32; 9608; 9608; 32; 32; 9608; 9608; 32; 32; 32; 32; 9608; 9608; 32; 32; 9608; 9608; 32; 32; 32; 32; 32; 32; 32; 9608; 9608; 9608; 9608; 9608; 9608; 9608; 32; 32; 9608; 9608; 9608; 9608; 9608; 9608; 32; 32; 32; 9608; 9608; 32; 32; 32; 9608; 9608; 9608; 9608; 9608; 9608];
  [9608; 9608; 32; 32; 32; 32; 32; 32; 32; 9608; 9608; 32; 32; 9608; 9608; 32; 32; 32; 32; 9608; 9608; 32; 32; 9608; 9608; 32; 32; 32; 32; 32; 32; 32; 9608; 9608; 32; 32; 32; 32; 32; 32; 32; 9608; 9608; 32; 32; 32; 9608; 9608; 32; 32; 9608; 9608; 32; 32; 9608; 9608; 32; 32; 32; 32; 32];
  [9608; 9608; 32; 32; 32; 9608; 32; 32; 32; 9608; 9608; 32; 32; 9608; 9608; 32; 32; 32; 32; 9608; 9608; 32; 32; 9608; 9608; 32; 32; 32; 32; 32; 32; 32; 9608; 9608; 9608; 9608; 9608; 32; 32; 32; 32; 9608; 9608; 9608; 9608; 9608; 9608; 32; 32; 32; 9608; 9608; 32; 32; 9608; 9608; 32; 32; 32; 32; 32];
  [9608; 9608; 32; 32; 9608; 9608; 9608; 32; 32; 9608; 9608; 32; 32; 9608; 9608; 32; 32; 32; 32; 9608; 9608; 32; 32; 9608; 9608; 32; 32; 32; 32; 32; 32; 32; 9608; 9608; 32; 32; 32; 32; 32; 32; 32; 9608; 9608; 32; 32; 32; 9608; 9608; 32; 32; 9608; 9608; 32; 32; 9608; 9608; 32; 32; 32; 32; 32];
  [32; 9608; 9608; 9608; 32; 32; 32; 9608; 9608; 9608; 32; 32; 32; 32; 9608; 9608; 9608; 9608; 9608; 9608; 32; 32; 32; 9608; 9608; 9608; 9608; 9608; 9608; 9608; 32; 32; 9608; 9608; 32; 32; 32; 32; 32; 32; 32; 9608; 9608; 32; 32; 32; 9608; 9608; 32; 32; 9608; 9608; 32; 32; 32; 9608; 9608; 9608; 9608; 9608; 9608]]%N.
(* /repo/src/wulfric/_package_info.py:103-111 *)
Definition cat_art : list text := [
  [9604; 32; 32; 32; 9604; 32; 32; 32; 32; 32];
  [9608; 9600; 9608; 9600; 9608; 32; 32; 32; 32; 32];
  [9608; 9604; 9608; 9604; 9608; 32; 32; 32; 32; 32];
  [32; 9608; 9608; 9608; 32; 32; 32; 9604; 9604; 32];
  [32; 9608; 9608; 9608; 9608; 32; 9608; 32; 32; 9608];
  [32; 9608; 9608; 9608; 9608; 32; 32; 32; 32; 9608];
  [32; 9600; 9600; 9600; 9600; 9600; 9600; 9600; 9600; 32]]%N.

(* f"{x:^{w}}": the extra blank goes to the right [/repo/src/wulfric/_package_info.py:126] *)
Definition center (w : nat) (x : text) : text :=
  let p := w - length x in repeat space (p / 2) ++ x ++ repeat space (p - p / 2).
(* f"{x:{w}}" of a string [/repo/src/wulfric/_package_info.py:133] *)
Definition ljust (w : nat) (x : text) : text := x ++ repeat space (w - length x).

(* info[i - before]; a negative index counts from the end.  The empty default is never used: see
   C62 [/repo/src/wulfric/_package_info.py:135, 141, 144] *)
Definition py_nth (l : list text) (i : Z) : text :=
  nth (Z.to_nat (if (i <? 0)%Z then i + Z.of_nat (length l) else i)%Z) l [].

(* The argument comment [/repo/src/wulfric/_package_info.py:119-124].  CStr covers every other object,
   through its str(). *)
Inductive comment_arg := CNone | CBool (b : bool) | CStr (s : text).
(* /repo/src/wulfric/_package_info.py:119-124 *)
Definition comment_text (c : comment_arg) : text :=
  match c with
  | CBool true => ascii_text "# "
  | CBool false => ascii_text "False"
  | CStr s => s
  | CNone => []
  end.

(* The default information; [now] is the line with the date and the time, given by the clock
   [/repo/src/wulfric/_package_info.py:72-86, /repo/src/wulfric/__init__.py:21-23] *)
Definition default_info (date_time : bool) (now : text) : list text :=
  [ascii_text "Version: 0.7.1"; ascii_text "Documentation: wulfric.org"; ascii_text "Release date: 18 June 2026";
   ascii_text "Licence: GNU GPLv3"; ascii_text "Copyright (C) 2023 Andrey Rybakov"]
  ++ (if date_time then [[]; now] else []).

(* The lines below the logo [/repo/src/wulfric/_package_info.py:127-145]; w = N - n, n the width of the cat *)
Definition info_lines (w n : nat) (info : list text) : list text :=
  let lc := length cat_art in
  let li := length info in
  if li =? 0 then []
  else if li <=? lc then
    let before := (lc - li) / 2 + (lc - li) mod 2 in
    let after := lc - li - before in
    map (fun i => if (i <? before) || (lc - after <=? i)
                  then ljust w [space] ++ center n (nth i cat_art [])
                  else center w (py_nth info (Z.of_nat i - Z.of_nat before)) ++ center n (nth i cat_art []))
        (seq 0 lc)
  else
    let before := (li - lc) / 2 in
    let after := li - lc - before in
    map (fun i => if (i <? before) || (li - after <=? i)
                  then center w (py_nth info (Z.of_nat i - Z.of_nat before))
                  else center w (py_nth info (Z.of_nat i - Z.of_nat before)) ++ center n (nth (i - before) cat_art []))
        (seq 0 li).

(* /repo/src/wulfric/_package_info.py:29-148.  line_length is an int or None; a value below N is raised to N *)
Definition logo (info : option (list text)) (line_length : option Z) (flat date_time : bool) (now : text)
  (comment : comment_arg) : text :=
  let info := match info with None => default_info date_time now | Some l => l end in
  let art := if flat then flat_art else logo_art in
  let N := length (nth 0 art []) in
  let n := length (nth 0 cat_art []) + 2 in
  let ll := match line_length with None => N | Some l => if (l <? Z.of_nat N)%Z then N else Z.to_nat l end in
  let lines := map (center N) art ++ info_lines (N - n) n info in
  removelast (concat (map (fun x => comment_text comment ++ center ll x ++ [newline]) lines)).
