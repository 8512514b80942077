(** Model of src/metadata.c.  A pointer into an image (VM memory or ROM file) is
    an index; every dereference is checked against the [size] of the image.
    NULL is [None]. *)
From Verif Require Import Base VmModel.

(** metadata.h:15-22 [buxn_metadata_t] *)
Record metadata : Type := mkMeta {
  md_version : Z; md_content : option Z; md_content_len : Z; md_ext : option Z; md_num_ext : Z }.
(** metadata.c:4 *)
Definition NO_METADATA : metadata := mkMeta 0 None 0 None 0.

(** metadata.c:11-16: the scan for the terminating zero; [None] is the early
    return.  [n] bounds the number of iterations. *)
Fixpoint scan (n : nat) (img : arr) (size addr max_addr : Z) : res (option Z) :=
  if addr >=? max_addr then Ok None
  else match n with
       | O => Fault Uninit
       | S n => rbind (aget size img addr) (fun b =>
                if b =? 0 then Ok (Some addr) else scan n img size (addr + 1) max_addr)
       end.

(** metadata.c:6-40 [buxn_metadata_parse_internal] *)
Definition parse_internal (img : arr) (size addr max_addr : Z) : res metadata :=
  rbind (aget size img addr) (fun version =>
  let content := addr + 1 in
  rbind (scan (Z.to_nat (max_addr - content)) img size content max_addr) (fun r =>
  match r with
  | None => Ok NO_METADATA
  | Some addr =>
      let content_len := s32 (addr - content) in
      rbind (if addr <? max_addr - 2 then
               rbind (aget size img (addr + 1)) (fun num =>
               if num >? 0 then
                 if Z.quot (max_addr - (addr + 2)) 3 <? num then Ok (None, 0) else Ok (Some (addr + 2), num)
               else Ok (None, num))
             else Ok (None, 0)) (fun '(ext, num) =>
      Ok (mkMeta version (Some content) content_len ext num))
  end)).

(** metadata.c:42-50 [buxn_metadata_parse_from_memory] *)
Definition parse_from_memory (v : vm) (address : Z) : res metadata :=
  if address >=? vm_msize v then Ok NO_METADATA
  else parse_internal (vm_mem v) (vm_msize v) address 65535.

(** metadata.c:52-70 [buxn_metadata_parse_from_rom] *)
Definition parse_from_rom (rom : arr) (size : Z) : res metadata :=
  if size <? 6 then Ok NO_METADATA else
  rbind (aget size rom 0) (fun b0 => if negb (b0 =? 160) then Ok NO_METADATA else
  rbind (aget size rom 3) (fun b3 => if negb (b3 =? 128) then Ok NO_METADATA else
  rbind (aget size rom 4) (fun b4 => if negb (b4 =? 6) then Ok NO_METADATA else
  rbind (aget size rom 5) (fun b5 => if negb (b5 =? 55) then Ok NO_METADATA else
  rbind (aget size rom 1) (fun hi => rbind (aget size rom 2) (fun lo =>
  let addr := u16 (Z.lor (Z.shiftl hi 8) lo) in
  if addr <=? 256 then Ok NO_METADATA
  else parse_internal rom size (addr - 256) size)))))).

(** metadata.c:72-87 [buxn_metadata_get_ext]; the result is (id, value). *)
Definition get_ext (img : arr) (size : Z) (m : metadata) (index : Z) : res (Z * Z) :=
  if index <? md_num_ext m then
    match md_ext m with
    | None => Fault BadHandle
    | Some e =>
        rbind (aget size img (e + 3 * index)) (fun id =>
        rbind (aget size img (e + (3 * index + 1))) (fun hi =>
        rbind (aget size img (e + (3 * index + 2))) (fun lo =>
        Ok (id, u16 (Z.lor (Z.shiftl hi 8) lo)))))
    end
  else Ok (0, 0).
