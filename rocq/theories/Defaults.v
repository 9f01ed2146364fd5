(** * Values made by [Default::default()] *)
From Verif Require Import Base Fqdn Types RDataBasic Bitmap RDataSec RData.

(** fqdn.rs:17-21, derived: no labels. *)
Definition fqdn_default : fqdn := [].
(** Derived for the record data types listed below, each field at the default of its own type: numbers 0, [false], empty
    strings, vectors, maps and sets, arrays of zeros, the name without labels (csync.rs:182-183: flags 0).  eui48.rs:10-11, eui64.rs:10-11,
    loc.rs:14-84, openpgpkey.rs:15-16, uri.rs:20-40, caa.rs:11-25, soa.rs:13-45, naptr.rs:16-70, csync.rs:38-64, cname.rs:20-23,
    srv.rs:14-50, opt.rs:26-27. *)
Definition eui48_default : bytes := repeat 0 6.
Definition eui64_default : bytes := repeat 0 8.
Definition loc_default : loc := mkLoc 0 0 0 0 0 0 0.
Definition openpgpkey_default : bytes := [].
Definition uri_default : uri := mkUri 0 0 [].
Definition caa_default : caa := mkCaa false [] [].
Definition soa_default : soa := mkSoa fqdn_default fqdn_default 0 0 0 0 0.
Definition naptr_default : naptr := mkNaptr 0 0 [] [] [] fqdn_default.
Definition csync_default : csync := mkCsync 0 0 [].
Definition cname_default : fqdn := fqdn_default.
Definition srv_default : srv := mkSrv 0 0 0 fqdn_default.
Definition opt_default : opt := [].
(** All of them as record data (rdata/mod.rs:138-177). *)
Definition default_data : list rdata :=
  [DEUI48 eui48_default; DEUI64 eui64_default; DLOC loc_default; DOPENPGPKEY openpgpkey_default; DURI uri_default; DCAA caa_default; DSOA soa_default;
   DNAPTR naptr_default; DCSYNC csync_default; DCNAME cname_default; DSRV srv_default; DOPT opt_default].
