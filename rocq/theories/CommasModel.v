(** * Model of longWithCommas (Utilities/longWithCommas.c): a number printed with commas.
      [cap] is strSize, the size of the caller's buffer.  [temp] has 30 bytes: a long long needs at most 26 of them. *)
From Coq Require Import ZArith List Bool.
From Verif Require Import Base CStr.
Import ListNotations.
Open Scope Z_scope.
Open Scope res_scope.

(** Utilities/longWithCommas.c:50-59: [rs] is the digits from the last to the first, the result is what is put in [temp], and
    [None] is the return of -1 *)
Fixpoint lwc_loop (rs : list Z) (ipos count cap : Z) : option (list Z) :=
  match rs with
  | [] => Some []
  | c :: rest =>
    if count + 1 =? cap then None
    else if (ipos + 1 =? 3) && negb (match rest with [] => true | _ => false end) then
      if count + 2 =? cap then None
      else match lwc_loop rest 0 (count + 2) cap with Some t => Some (c :: 44 :: t) | None => None end
    else match lwc_loop rest (ipos + 1) (count + 1) cap with Some t => Some (c :: t) | None => None end
  end.

(** Utilities/longWithCommas.c:29-70: [Some (text, count)], or [None] for -1.  Line 40: the negation of the least long long
    overflows.  Line 46: the print is cut to [cap] - 1 characters.  Lines 62, 68: the sign is counted after the last check, and
    the terminating zero is written at [count] *)
Definition longWithCommas (cap number : Z) : res (option (list Z * Z)) :=
  if number =? - 9223372036854775808 then Undef
  else
    let printed := stake (cap - 1) (dec (Z.abs number)) in
    match lwc_loop (rev printed) 0 0 cap with
    | None => Ok None
    | Some temp =>
      let text := (if number <? 0 then [45] else []) ++ rev temp in
      if slen text <? cap then Ok (Some (text, slen text)) else Undef
    end.
