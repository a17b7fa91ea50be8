(** Model of /repo/tivars/types/group.py: TIGroup. *)
From Verif Require Import PyBase M_Data M_Flags M_Models M_Class M_Var M_List.

Section Groups.
  (** As in M_Var; [get_version] is the version function of the entries inside
      a group (of a nested group, again [group_version]). *)
  Variable name_set : cls -> str -> out bytes.
  Variable get_version : entry -> option bytes -> out Z.
  Variable prog_scan : bytes -> option bool.

  (** The type IDs of the two special [case]s: programs, protected programs,
      appvars, groups; real and complex lists.  group.py:80-84, 119, 130;
      tokenized.py:364, 467; appvar.py:25; group.py:38; list.py:220, 236. *)
  Definition is_named (t : Z) : bool := (t =? 5) || (t =? 6) || (t =? 21) || (t =? 23).
  Definition is_list (t : Z) : bool := (t =? 1) || (t =? 13).

  (** The VAT fields after the version: page, name, and the rest of the stream.
      [*_, page, length = data.read(4)] needs two bytes, [*_, page =
      data.read(3)] one; [data.read(-1)] reads everything.
      group.py:118-142. *)
  Definition read_vat (t : Z) (l : bytes) : out (Z * bytes * bytes) :=
    if is_named t then
      let '(y, l) := rd 4 l in
      match rev y with
      | n :: page :: _ =>
          do _ := owarn_if (8 <? n) WGroup in
          let '(name, l) := rd (Z.to_nat n) l in oret (page, name, l)
      | _ => oerr ValueError
      end
    else if is_list t then
      let '(y, l) := rd 4 l in
      match rev y with
      | n :: page :: _ =>
          do _ := owarn_if (7 <? n) WGroup in
          let '(name, l) := if n =? 0 then (l, []) else rd (Z.to_nat (n - 1)) l in
          let '(_, l) := rd 1 l in oret (page, name, l)
      | _ => oerr ValueError
      end
    else
      let '(y, l) := rd 3 l in
      match rev y with
      | page :: _ => let '(name, l) := rd 3 l in oret (page, name, l)
      | [] => oerr ValueError
      end.

  (** One round of [ungroup] after the type byte: the entry and the rest.  The
      raw container has no slot [flags], so a graphed equation raises
      AttributeError.  group.py:116-152. *)
  Definition ungroup_one (flash : bool) (tb : Z) (l : bytes) : out (entry * bytes) :=
    let '(x, l) := rd 2 l in
    match x with
    | [_; ver] =>
        let t := Z.land tb 63 in
        do (page, name, l) := read_vat t l in
        do e := entry_new name_set get_version prog_scan KEntry flash (s2l "UNNAMED") (Some ver) (Some (0 <? page)) [] in
        do e := set_type_id e t in
        do e := coerce prog_scan e in
        let e := with_name e (ljust 8 name) in
        let '(d, l) := load_data_section (e_cls e) l in
        let e := with_data e (Buf true d) in
        if cls_eqb (e_cls e) KGraphedEquation then oerr AttributeError else oret (e, l)
    | _ => oerr ValueError
    end.
  (** The loop of [ungroup]; each round takes at least the type byte, so a fuel
      of the stream's length suffices.  group.py:111-154. *)
  Fixpoint ungroup_loop (fuel : nat) (flash : bool) (l : bytes) : out (list entry) :=
    match l with
    | [] => oret []
    | tb :: l =>
        match fuel with
        | O => oerr StopIteration
        | S fuel =>
            do (e, l) := ungroup_one flash tb l in
            do r := ungroup_loop fuel flash l in
            oret (e :: r)
        end
    end.
  (** [ungroup]: [data or self.data[:]].  group.py:101-154. *)
  Definition ungroup (g : entry) (arg : option bytes) : out (list entry) :=
    let d := match arg with Some ((_ :: _) as d) => d | _ => data g end in
    ungroup_loop (length d) (match flash_bytes g with [] => false | _ => true end) d.
  (** [get_version].  group.py:98-99. *)
  Definition group_version (g : entry) (arg : option bytes) : out Z :=
    do es := ungroup g arg in
    do vs := omapM (fun e => get_version e None) es in
    oret (match vs with [] => 0 | v :: r => fold_left Z.max r v end).

  (** [TIGroup(for_flash=..., name=...)].  group.py:40-45. *)
  Definition group_new (for_flash : bool) (name : str) : out entry :=
    entry_new name_set group_version prog_scan KGroup for_flash name None (Some true) [].
  (** The VAT of one entry.  group.py:69-88. *)
  Definition vat_of (x : entry) : out bytes :=
    let name := rstrip0 (e_name x) in
    do t := olift (type_id x) in
    do v := olift (version x) in
    do _ := owarn_if (archived x) WGroup in
    if cls_eqb (e_cls x) KGraphedEquation then oerr AttributeError
    else
      do tail := olift (if is_named t then bytes_of (zlen name :: name)
                        else if is_list t then bytes_of (zlen name + 1 :: name ++ [0])
                        else Ok (ljust 3 name)) in
      oret ([t; 0; v; 0; 0; Z.b2z (archived x)] ++ tail).
  (** The loop of [group].  group.py:68-91. *)
  Fixpoint group_loop (g : entry) (es : list entry) : out entry :=
    match es with
    | [] => oret g
    | x :: es =>
        do vat := vat_of x in
        do g := set_data group_version g (data g ++ vat) in
        do g := set_data group_version g (data g ++ calc_data x) in
        group_loop g es
    end.
  (** [group].  group.py:47-93. *)
  Definition group (es : list entry) (name : str) : out entry :=
    match es with
    | [] => do _ := owarn WGroup in group_new true name
    | x :: r =>
        do _ := owarn_if (match r with [] => true | _ => false end) WGroup in
        do g := group_new (match flash_bytes x with [] => false | _ => true end) name in
        group_loop g es
    end.
  (** [load_from_entries]: [self.data = self.group(entries).data].
      group.py:156-165. *)
  Definition load_from_entries (g : entry) (es : list entry) : out entry :=
    do x := group es (s2l "GROUP") in set_data group_version g (data x).
End Groups.
