(** * The classes of pykickstart/base.py and pykickstart/commands/*.py

    Written by tools/gen_classes.py from the class statements: name, bases, and the
    methods defined in the class body.  [Calls b]: the body of the method is just a
    call of the same method of class b with no arguments.  Static and class
    attributes are not listed. *)

From Coq Require Export String List.
Export ListNotations.
Local Open Scope string_scope.

Inductive body := Own | Calls (b : string).
Record classdef := mkClassdef { k_name : string; k_bases : list string; k_methods : list (string * body) }.

(** base.py *)
Definition classes_base : list classdef := [
  (* base.py:59-189 *) mkClassdef "KickstartCommand" ["KickstartObject"]
    [("__init__", Own); ("__call__", Own); ("__str__", Own); ("parse", Own); ("dataList", Own); ("dataClass", Own); ("deleteRemovedAttrs", Own); ("set_to_self", Own); ("_setToSelf", Own); ("set_to_obj", Own); ("_setToObj", Own)];
  (* base.py:191-221 *) mkClassdef "DeprecatedCommand" ["KickstartCommand"]
    [("__init__", Own); ("dataList", Own); ("dataClass", Own); ("__str__", Own); ("parse", Own)];
  (* base.py:223-252 *) mkClassdef "RemovedCommand" ["KickstartCommand"]
    [("__init__", Own); ("dataList", Own); ("dataClass", Own); ("__str__", Own); ("parse", Own)];
  (* base.py:572-619 *) mkClassdef "BaseData" ["KickstartObject"]
    [("__init__", Own); ("__str__", Own); ("__call__", Own); ("deleteRemovedAttrs", Own)]].

(** commands/authconfig.py *)
Definition classes_authconfig : list classdef := [
  (* commands/authconfig.py:29-62 *) mkClassdef "FC3_Authconfig" ["KickstartCommand"]
    [("__init__", Own); ("__str__", Own); ("parse", Own); ("_getParser", Own)];
  (* commands/authconfig.py:65-86 *) mkClassdef "F28_Authconfig" ["FC3_Authconfig"]
    [("parse", Own); ("_getParser", Own)]].

(** commands/authselect.py *)
Definition classes_authselect : list classdef := [
  (* commands/authselect.py:25-56 *) mkClassdef "F28_Authselect" ["KickstartCommand"]
    [("__init__", Own); ("__str__", Own); ("parse", Own); ("_getParser", Own)]].

(** commands/autopart.py *)
Definition classes_autopart : list classdef := [
  (* commands/autopart.py:29-61 *) mkClassdef "FC3_AutoPart" ["KickstartCommand"]
    [("__init__", Own); ("__str__", Own); ("parse", Own); ("_getParser", Own)];
  (* commands/autopart.py:63-108 *) mkClassdef "F9_AutoPart" ["FC3_AutoPart"]
    [("__init__", Own); ("__str__", Own); ("_getParser", Own); ("parse", Own)];
  (* commands/autopart.py:110-155 *) mkClassdef "F12_AutoPart" ["F9_AutoPart"]
    [("__init__", Own); ("__str__", Own); ("_getParser", Own)];
  (* commands/autopart.py:157-214 *) mkClassdef "RHEL6_AutoPart" ["F12_AutoPart"]
    [("__init__", Own); ("__str__", Own); ("_getParser", Own); ("parse", Own)];
  (* commands/autopart.py:217-244 *) mkClassdef "F16_AutoPart" ["F12_AutoPart"]
    [("__init__", Own); ("__str__", Own); ("_getParser", Own)];
  (* commands/autopart.py:246-304 *) mkClassdef "F17_AutoPart" ["F16_AutoPart"]
    [("__init__", Own); ("_typeAsStr", Own); ("__str__", Own); ("_type_cb", Own); ("_getParser", Own); ("parse", Own)];
  (* commands/autopart.py:306-333 *) mkClassdef "F18_AutoPart" ["F17_AutoPart"]
    [("__init__", Own); ("__str__", Own); ("_getParser", Own)];
  (* commands/autopart.py:335-382 *) mkClassdef "F20_AutoPart" ["F18_AutoPart"]
    [("__init__", Own); ("parse", Own); ("_getParser", Own)];
  (* commands/autopart.py:384-425 *) mkClassdef "F21_AutoPart" ["F20_AutoPart"]
    [("__init__", Own); ("__str__", Own); ("_getParser", Own); ("parse", Own)];
  (* commands/autopart.py:427-441 *) mkClassdef "F23_AutoPart" ["F21_AutoPart"]
    [("parse", Own)];
  (* commands/autopart.py:443-482 *) mkClassdef "RHEL7_AutoPart" ["F21_AutoPart"]
    [("__init__", Own); ("__str__", Own); ("_getParser", Own); ("parse", Own)];
  (* commands/autopart.py:484-530 *) mkClassdef "F26_AutoPart" ["F23_AutoPart"]
    [("__init__", Own); ("__str__", Own); ("_getParser", Own)];
  (* commands/autopart.py:532-618 *) mkClassdef "F29_AutoPart" ["F26_AutoPart"]
    [("__init__", Own); ("__str__", Own); ("_getParser", Own); ("parse", Own)];
  (* commands/autopart.py:620-651 *) mkClassdef "RHEL8_AutoPart" ["F29_AutoPart"]
    [("parse", Own); ("_getParser", Own)]].

(** commands/autostep.py *)
Definition classes_autostep : list classdef := [
  (* commands/autostep.py:24-66 *) mkClassdef "FC3_AutoStep" ["KickstartCommand"]
    [("__init__", Own); ("__str__", Own); ("_getParser", Own); ("parse", Own)];
  (* commands/autostep.py:68-75 *) mkClassdef "F34_AutoStep" ["DeprecatedCommand"; "FC3_AutoStep"]
    [("__init__", Calls "DeprecatedCommand"); ("_getParser", Own)]].

(** commands/bootloader.py *)
Definition classes_bootloader : list classdef := [
  (* commands/bootloader.py:28-152 *) mkClassdef "FC3_Bootloader" ["KickstartCommand"]
    [("__init__", Own); ("_getArgsAsStr", Own); ("__str__", Own); ("_getParser", Own); ("parse", Own)];
  (* commands/bootloader.py:155-163 *) mkClassdef "FC3_Lilo" ["FC3_Bootloader"]
    [("_getParser", Own)];
  (* commands/bootloader.py:165-169 *) mkClassdef "FC4_Lilo" ["RemovedCommand"; "FC3_Lilo"]
    [("_getParser", Own)];
  (* commands/bootloader.py:172-207 *) mkClassdef "FC4_Bootloader" ["FC3_Bootloader"]
    [("__init__", Own); ("_getArgsAsStr", Own); ("_getParser", Own); ("parse", Own)];
  (* commands/bootloader.py:209-237 *) mkClassdef "F8_Bootloader" ["FC4_Bootloader"]
    [("__init__", Own); ("_getArgsAsStr", Own); ("_getParser", Own)];
  (* commands/bootloader.py:239-248 *) mkClassdef "F12_Bootloader" ["F8_Bootloader"]
    [("_getParser", Own)];
  (* commands/bootloader.py:250-257 *) mkClassdef "F14_Bootloader" ["F12_Bootloader"]
    [("_getParser", Own)];
  (* commands/bootloader.py:259-299 *) mkClassdef "F15_Bootloader" ["F14_Bootloader"]
    [("__init__", Own); ("_getArgsAsStr", Own); ("_getParser", Own); ("parse", Own)];
  (* commands/bootloader.py:301-332 *) mkClassdef "F17_Bootloader" ["F15_Bootloader"]
    [("__init__", Own); ("_getArgsAsStr", Own); ("_getParser", Own); ("parse", Own)];
  (* commands/bootloader.py:334-358 *) mkClassdef "F18_Bootloader" ["F17_Bootloader"]
    [("__init__", Own); ("_getArgsAsStr", Own); ("_getParser", Own)];
  (* commands/bootloader.py:360-383 *) mkClassdef "RHEL5_Bootloader" ["FC4_Bootloader"]
    [("__init__", Own); ("_getArgsAsStr", Own); ("_getParser", Own)];
  (* commands/bootloader.py:385-425 *) mkClassdef "RHEL6_Bootloader" ["F12_Bootloader"]
    [("__init__", Own); ("_getArgsAsStr", Own); ("_getParser", Own); ("parse", Own)];
  (* commands/bootloader.py:427-450 *) mkClassdef "F19_Bootloader" ["F18_Bootloader"]
    [("__init__", Own); ("_getArgsAsStr", Own); ("_getParser", Own)];
  (* commands/bootloader.py:452-490 *) mkClassdef "F21_Bootloader" ["F19_Bootloader"]
    [("__init__", Own); ("_getArgsAsStr", Own); ("_getParser", Own)];
  (* commands/bootloader.py:492-493 *) mkClassdef "RHEL7_Bootloader" ["F21_Bootloader"]
    [];
  (* commands/bootloader.py:495-503 *) mkClassdef "F29_Bootloader" ["F21_Bootloader"]
    [("_getParser", Own)];
  (* commands/bootloader.py:505-506 *) mkClassdef "RHEL8_Bootloader" ["F29_Bootloader"]
    [];
  (* commands/bootloader.py:508-515 *) mkClassdef "F34_Bootloader" ["F29_Bootloader"]
    [("_getParser", Own)]].

(** commands/btrfs.py *)
Definition classes_btrfs : list classdef := [
  (* commands/btrfs.py:29-78 *) mkClassdef "F17_BTRFSData" ["BaseData"]
    [("__init__", Own); ("__eq__", Own); ("__ne__", Own); ("_getArgsAsStr", Own); ("__str__", Own)];
  (* commands/btrfs.py:80-94 *) mkClassdef "F23_BTRFSData" ["F17_BTRFSData"]
    [("__init__", Own); ("_getArgsAsStr", Own)];
  (* commands/btrfs.py:96-97 *) mkClassdef "RHEL7_BTRFSData" ["F23_BTRFSData"]
    [];
  (* commands/btrfs.py:99-242 *) mkClassdef "F17_BTRFS" ["KickstartCommand"]
    [("__init__", Own); ("__str__", Own); ("_getParser", Own); ("parse", Own); ("dataList", Own); ("dataClass", Own)];
  (* commands/btrfs.py:244-266 *) mkClassdef "F23_BTRFS" ["F17_BTRFS"]
    [("_getParser", Own); ("parse", Own)];
  (* commands/btrfs.py:268-269 *) mkClassdef "RHEL7_BTRFS" ["F23_BTRFS"]
    [];
  (* commands/btrfs.py:271-278 *) mkClassdef "RHEL8_BTRFS" ["DeprecatedCommand"; "F23_BTRFS"]
    [("__init__", Calls "DeprecatedCommand"); ("_getParser", Own)]].

(** commands/cdrom.py *)
Definition classes_cdrom : list classdef := [
  (* commands/cdrom.py:27-48 *) mkClassdef "FC3_Cdrom" ["KickstartCommand"]
    [("__str__", Own); ("parse", Own); ("_getParser", Own)]].

(** commands/clearpart.py *)
Definition classes_clearpart : list classdef := [
  (* commands/clearpart.py:25-101 *) mkClassdef "FC3_ClearPart" ["KickstartCommand"]
    [("__init__", Own); ("__str__", Own); ("_getParser", Own); ("parse", Own)];
  (* commands/clearpart.py:103-132 *) mkClassdef "F17_ClearPart" ["FC3_ClearPart"]
    [("__init__", Own); ("__str__", Own); ("_getParser", Own); ("parse", Own)];
  (* commands/clearpart.py:134-152 *) mkClassdef "F21_ClearPart" ["F17_ClearPart"]
    [("__init__", Own); ("__str__", Own); ("_getParser", Own)];
  (* commands/clearpart.py:154-171 *) mkClassdef "F28_ClearPart" ["F21_ClearPart"]
    [("__init__", Own); ("__str__", Own); ("_getParser", Own)];
  (* commands/clearpart.py:173-174 *) mkClassdef "RHEL7_ClearPart" ["F28_ClearPart"]
    []].

(** commands/device.py *)
Definition classes_device : list classdef := [
  (* commands/device.py:28-55 *) mkClassdef "F8_DeviceData" ["BaseData"]
    [("__init__", Own); ("__eq__", Own); ("__ne__", Own); ("__str__", Own)];
  (* commands/device.py:57-123 *) mkClassdef "FC3_Device" ["KickstartCommand"]
    [("__init__", Own); ("__eq__", Own); ("__ne__", Own); ("__str__", Own); ("_getParser", Own); ("parse", Own)];
  (* commands/device.py:125-165 *) mkClassdef "F8_Device" ["FC3_Device"]
    [("__init__", Own); ("__str__", Own); ("parse", Own); ("dataList", Own); ("dataClass", Own)];
  (* commands/device.py:167-174 *) mkClassdef "F24_Device" ["DeprecatedCommand"; "F8_Device"]
    [("__init__", Calls "DeprecatedCommand"); ("_getParser", Own)];
  (* commands/device.py:176-180 *) mkClassdef "F34_Device" ["RemovedCommand"; "F24_Device"]
    [("_getParser", Own)]].

(** commands/deviceprobe.py *)
Definition classes_deviceprobe : list classdef := [
  (* commands/deviceprobe.py:25-46 *) mkClassdef "FC3_DeviceProbe" ["KickstartCommand"]
    [("__init__", Own); ("__str__", Own); ("parse", Own); ("_getParser", Own)];
  (* commands/deviceprobe.py:49-57 *) mkClassdef "F29_DeviceProbe" ["DeprecatedCommand"; "FC3_DeviceProbe"]
    [("__init__", Calls "DeprecatedCommand"); ("_getParser", Own)];
  (* commands/deviceprobe.py:59-63 *) mkClassdef "F34_DeviceProbe" ["RemovedCommand"; "F29_DeviceProbe"]
    [("_getParser", Own)]].

(** commands/displaymode.py *)
Definition classes_displaymode : list classdef := [
  (* commands/displaymode.py:29-75 *) mkClassdef "FC3_DisplayMode" ["KickstartCommand"]
    [("__init__", Own); ("__str__", Own); ("parse", Own); ("_getParser", Own)];
  (* commands/displaymode.py:77-111 *) mkClassdef "F26_DisplayMode" ["FC3_DisplayMode"]
    [("__init__", Own); ("__str__", Own); ("_getParser", Own); ("parse", Own)]].

(** commands/dmraid.py *)
Definition classes_dmraid : list classdef := [
  (* commands/dmraid.py:29-56 *) mkClassdef "FC6_DmRaidData" ["BaseData"]
    [("__init__", Own); ("__eq__", Own); ("__ne__", Own); ("__str__", Own)];
  (* commands/dmraid.py:58-100 *) mkClassdef "FC6_DmRaid" ["KickstartCommand"]
    [("__init__", Own); ("__str__", Own); ("_getParser", Own); ("parse", Own); ("dataList", Own); ("dataClass", Own)];
  (* commands/dmraid.py:102-109 *) mkClassdef "F24_DmRaid" ["DeprecatedCommand"; "FC6_DmRaid"]
    [("__init__", Calls "DeprecatedCommand"); ("_getParser", Own)];
  (* commands/dmraid.py:111-115 *) mkClassdef "F34_DmRaid" ["RemovedCommand"; "F24_DmRaid"]
    [("_getParser", Own)]].

(** commands/driverdisk.py *)
Definition classes_driverdisk : list classdef := [
  (* commands/driverdisk.py:27-53 *) mkClassdef "FC3_DriverDiskData" ["BaseData"]
    [("__init__", Own); ("_getArgsAsStr", Own); ("__str__", Own)];
  (* commands/driverdisk.py:55-78 *) mkClassdef "FC4_DriverDiskData" ["FC3_DriverDiskData"]
    [("__init__", Own); ("_getArgsAsStr", Own)];
  (* commands/driverdisk.py:80-86 *) mkClassdef "F12_DriverDiskData" ["FC4_DriverDiskData"]
    [("__init__", Own)];
  (* commands/driverdisk.py:88-89 *) mkClassdef "F14_DriverDiskData" ["F12_DriverDiskData"]
    [];
  (* commands/driverdisk.py:91-156 *) mkClassdef "FC3_DriverDisk" ["KickstartCommand"]
    [("__init__", Own); ("__str__", Own); ("_getParser", Own); ("parse", Own); ("dataList", Own); ("dataClass", Own)];
  (* commands/driverdisk.py:158-194 *) mkClassdef "FC4_DriverDisk" ["FC3_DriverDisk"]
    [("_getParser", Own); ("parse", Own)];
  (* commands/driverdisk.py:196-203 *) mkClassdef "F12_DriverDisk" ["FC4_DriverDisk"]
    [("_getParser", Own)];
  (* commands/driverdisk.py:205-212 *) mkClassdef "F14_DriverDisk" ["F12_DriverDisk"]
    [("_getParser", Own)]].

(** commands/eula.py *)
Definition classes_eula : list classdef := [
  (* commands/eula.py:27-70 *) mkClassdef "F20_Eula" ["KickstartCommand"]
    [("__init__", Own); ("__str__", Own); ("_getArgsAsStr", Own); ("_getParser", Own); ("parse", Own)]].

(** commands/fcoe.py *)
Definition classes_fcoe : list classdef := [
  (* commands/fcoe.py:28-56 *) mkClassdef "F12_FcoeData" ["BaseData"]
    [("__init__", Own); ("__eq__", Own); ("__ne__", Own); ("_getArgsAsStr", Own); ("__str__", Own)];
  (* commands/fcoe.py:58-72 *) mkClassdef "F13_FcoeData" ["F12_FcoeData"]
    [("__init__", Own); ("_getArgsAsStr", Own)];
  (* commands/fcoe.py:74-88 *) mkClassdef "RHEL7_FcoeData" ["F13_FcoeData"]
    [("__init__", Own); ("_getArgsAsStr", Own)];
  (* commands/fcoe.py:90-104 *) mkClassdef "F28_FcoeData" ["F13_FcoeData"]
    [("__init__", Own); ("_getArgsAsStr", Own)];
  (* commands/fcoe.py:106-107 *) mkClassdef "RHEL8_FcoeData" ["F28_FcoeData"]
    [];
  (* commands/fcoe.py:109-152 *) mkClassdef "F12_Fcoe" ["KickstartCommand"]
    [("__init__", Own); ("__str__", Own); ("_getParser", Own); ("parse", Own); ("dataList", Own); ("dataClass", Own)];
  (* commands/fcoe.py:154-167 *) mkClassdef "F13_Fcoe" ["F12_Fcoe"]
    [("_getParser", Own)];
  (* commands/fcoe.py:169-179 *) mkClassdef "RHEL7_Fcoe" ["F13_Fcoe"]
    [("_getParser", Own)];
  (* commands/fcoe.py:181-191 *) mkClassdef "F28_Fcoe" ["F13_Fcoe"]
    [("_getParser", Own)];
  (* commands/fcoe.py:193-194 *) mkClassdef "RHEL8_Fcoe" ["F28_Fcoe"]
    []].

(** commands/firewall.py *)
Definition classes_firewall : list classdef := [
  (* commands/firewall.py:24-146 *) mkClassdef "FC3_Firewall" ["KickstartCommand"]
    [("__init__", Own); ("__str__", Own); ("_getParser", Own); ("parse", Own)];
  (* commands/firewall.py:148-156 *) mkClassdef "F9_Firewall" ["FC3_Firewall"]
    [("_getParser", Own)];
  (* commands/firewall.py:158-210 *) mkClassdef "F10_Firewall" ["F9_Firewall"]
    [("__init__", Own); ("__str__", Own); ("_getParser", Own)];
  (* commands/firewall.py:212-219 *) mkClassdef "F14_Firewall" ["F10_Firewall"]
    [("_getParser", Own)];
  (* commands/firewall.py:221-247 *) mkClassdef "F20_Firewall" ["F14_Firewall"]
    [("__init__", Own); ("_getParser", Own); ("__str__", Own)];
  (* commands/firewall.py:249-269 *) mkClassdef "F28_Firewall" ["F20_Firewall"]
    [("__init__", Own); ("_getParser", Own); ("__str__", Own)]].

(** commands/firstboot.py *)
Definition classes_firstboot : list classdef := [
  (* commands/firstboot.py:25-79 *) mkClassdef "FC3_Firstboot" ["KickstartCommand"]
    [("__init__", Own); ("__str__", Own); ("_getParser", Own); ("parse", Own)]].

(** commands/group.py *)
Definition classes_group : list classdef := [
  (* commands/group.py:28-55 *) mkClassdef "F12_GroupData" ["BaseData"]
    [("__init__", Own); ("__eq__", Own); ("__ne__", Own); ("__str__", Own)];
  (* commands/group.py:57-104 *) mkClassdef "F12_Group" ["KickstartCommand"]
    [("__init__", Own); ("__str__", Own); ("_getParser", Own); ("parse", Own); ("dataList", Own); ("dataClass", Own)]].

(** commands/harddrive.py *)
Definition classes_harddrive : list classdef := [
  (* commands/harddrive.py:27-92 *) mkClassdef "FC3_HardDrive" ["KickstartCommand"]
    [("__init__", Own); ("__eq__", Own); ("__ne__", Own); ("__str__", Own); ("_getParser", Own); ("parse", Own)];
  (* commands/harddrive.py:95-129 *) mkClassdef "F33_HardDrive" ["FC3_HardDrive"]
    [("__init__", Own); ("__eq__", Own); ("__str__", Own); ("_getParser", Own); ("parse", Own)]].

(** commands/hmc.py *)
Definition classes_hmc : list classdef := [
  (* commands/hmc.py:27-49 *) mkClassdef "RHEL7_Hmc" ["KickstartCommand"]
    [("__str__", Own); ("_getParser", Own); ("parse", Own)];
  (* commands/hmc.py:51-52 *) mkClassdef "F28_Hmc" ["RHEL7_Hmc"]
    []].

(** commands/ignoredisk.py *)
Definition classes_ignoredisk : list classdef := [
  (* commands/ignoredisk.py:26-58 *) mkClassdef "FC3_IgnoreDisk" ["KickstartCommand"]
    [("__init__", Own); ("__str__", Own); ("_getParser", Own); ("parse", Own)];
  (* commands/ignoredisk.py:60-102 *) mkClassdef "F8_IgnoreDisk" ["FC3_IgnoreDisk"]
    [("__init__", Own); ("__str__", Own); ("parse", Own); ("_getParser", Own)];
  (* commands/ignoredisk.py:104-144 *) mkClassdef "RHEL6_IgnoreDisk" ["F8_IgnoreDisk"]
    [("__init__", Own); ("__str__", Own); ("parse", Own); ("_getParser", Own)];
  (* commands/ignoredisk.py:146-147 *) mkClassdef "F14_IgnoreDisk" ["RHEL6_IgnoreDisk"]
    [];
  (* commands/ignoredisk.py:149-162 *) mkClassdef "F29_IgnoreDisk" ["F14_IgnoreDisk"]
    [("parse", Own); ("_getParser", Own)];
  (* commands/ignoredisk.py:164-171 *) mkClassdef "F34_IgnoreDisk" ["F29_IgnoreDisk"]
    [("_getParser", Own)]].

(** commands/install.py *)
Definition classes_install : list classdef := [
  (* commands/install.py:25-56 *) mkClassdef "F20_Install" ["F11_Upgrade"]
    [("_getParser", Own); ("parse", Own)];
  (* commands/install.py:59-66 *) mkClassdef "F29_Install" ["DeprecatedCommand"; "F20_Install"]
    [("__init__", Calls "DeprecatedCommand"); ("_getParser", Own)];
  (* commands/install.py:69-73 *) mkClassdef "F34_Install" ["RemovedCommand"; "F29_Install"]
    [("_getParser", Own)]].

(** commands/interactive.py *)
Definition classes_interactive : list classdef := [
  (* commands/interactive.py:24-49 *) mkClassdef "FC3_Interactive" ["KickstartCommand"]
    [("__init__", Own); ("__str__", Own); ("_getParser", Own); ("parse", Own)];
  (* commands/interactive.py:51-58 *) mkClassdef "F14_Interactive" ["DeprecatedCommand"; "FC3_Interactive"]
    [("__init__", Calls "DeprecatedCommand"); ("_getParser", Own)];
  (* commands/interactive.py:60-64 *) mkClassdef "F15_Interactive" ["RemovedCommand"; "F14_Interactive"]
    [("_getParser", Own)]].

(** commands/iscsi.py *)
Definition classes_iscsi : list classdef := [
  (* commands/iscsi.py:25-56 *) mkClassdef "FC6_IscsiData" ["BaseData"]
    [("__init__", Own); ("_getArgsAsStr", Own); ("__str__", Own)];
  (* commands/iscsi.py:58-75 *) mkClassdef "F10_IscsiData" ["FC6_IscsiData"]
    [("__init__", Own); ("_getArgsAsStr", Own)];
  (* commands/iscsi.py:77-91 *) mkClassdef "RHEL6_IscsiData" ["F10_IscsiData"]
    [("__init__", Own); ("_getArgsAsStr", Own)];
  (* commands/iscsi.py:93-94 *) mkClassdef "F17_IscsiData" ["RHEL6_IscsiData"]
    [];
  (* commands/iscsi.py:96-162 *) mkClassdef "FC6_Iscsi" ["KickstartCommand"]
    [("__init__", Own); ("__str__", Own); ("_getParser", Own); ("parse", Own); ("dataList", Own); ("dataClass", Own)];
  (* commands/iscsi.py:164-177 *) mkClassdef "F10_Iscsi" ["FC6_Iscsi"]
    [("_getParser", Own)];
  (* commands/iscsi.py:179-190 *) mkClassdef "RHEL6_Iscsi" ["F10_Iscsi"]
    [("_getParser", Own)];
  (* commands/iscsi.py:192-204 *) mkClassdef "F17_Iscsi" ["RHEL6_Iscsi"]
    [("_getParser", Own)]].

(** commands/iscsiname.py *)
Definition classes_iscsiname : list classdef := [
  (* commands/iscsiname.py:28-64 *) mkClassdef "FC6_IscsiName" ["KickstartCommand"]
    [("__init__", Own); ("__str__", Own); ("_getParser", Own); ("parse", Own)]].

(** commands/key.py *)
Definition classes_key : list classdef := [
  (* commands/key.py:28-68 *) mkClassdef "RHEL5_Key" ["KickstartCommand"]
    [("__init__", Own); ("__str__", Own); ("_getParser", Own); ("parse", Own)]].

(** commands/keyboard.py *)
Definition classes_keyboard : list classdef := [
  (* commands/keyboard.py:29-62 *) mkClassdef "FC3_Keyboard" ["KickstartCommand"]
    [("__init__", Own); ("__str__", Own); ("_getParser", Own); ("parse", Own)];
  (* commands/keyboard.py:64-190 *) mkClassdef "F18_Keyboard" ["FC3_Keyboard"]
    [("__init__", Own); ("__str__", Own); ("_getArgsAsStr", Own); ("_getParser", Own); ("parse", Own); ("keyboard", Own)]].

(** commands/lang.py *)
Definition classes_lang : list classdef := [
  (* commands/lang.py:27-75 *) mkClassdef "FC3_Lang" ["KickstartCommand"]
    [("__init__", Own); ("__str__", Own); ("_getParser", Own); ("parse", Own)];
  (* commands/lang.py:77-102 *) mkClassdef "F19_Lang" ["FC3_Lang"]
    [("__init__", Own); ("__str__", Own); ("_getParser", Own)]].

(** commands/langsupport.py *)
Definition classes_langsupport : list classdef := [
  (* commands/langsupport.py:26-63 *) mkClassdef "FC3_LangSupport" ["KickstartCommand"]
    [("__init__", Own); ("__str__", Own); ("_getParser", Own); ("parse", Own)];
  (* commands/langsupport.py:65-72 *) mkClassdef "FC5_LangSupport" ["DeprecatedCommand"; "FC3_LangSupport"]
    [("__init__", Calls "DeprecatedCommand"); ("_getParser", Own)];
  (* commands/langsupport.py:74-78 *) mkClassdef "F7_LangSupport" ["RemovedCommand"; "FC5_LangSupport"]
    [("_getParser", Own)]].

(** commands/lilocheck.py *)
Definition classes_lilocheck : list classdef := [
  (* commands/lilocheck.py:24-48 *) mkClassdef "FC3_LiloCheck" ["KickstartCommand"]
    [("__init__", Own); ("__str__", Own); ("_getParser", Own); ("parse", Own)];
  (* commands/lilocheck.py:50-54 *) mkClassdef "FC4_LiloCheck" ["RemovedCommand"; "FC3_LiloCheck"]
    [("_getParser", Own)]].

(** commands/liveimg.py *)
Definition classes_liveimg : list classdef := [
  (* commands/liveimg.py:24-101 *) mkClassdef "F19_Liveimg" ["KickstartCommand"]
    [("__init__", Own); ("__eq__", Own); ("__str__", Own); ("_getParser", Own); ("parse", Own)]].

(** commands/logging.py *)
Definition classes_logging : list classdef := [
  (* commands/logging.py:27-83 *) mkClassdef "FC6_Logging" ["KickstartCommand"]
    [("__init__", Own); ("__str__", Own); ("_getParser", Own); ("parse", Own)];
  (* commands/logging.py:86-104 *) mkClassdef "F34_Logging" ["FC6_Logging"]
    [("__str__", Own); ("_getParser", Own)]].

(** commands/logvol.py *)
Definition classes_logvol : list classdef := [
  (* commands/logvol.py:29-86 *) mkClassdef "FC3_LogVolData" ["BaseData"]
    [("__init__", Own); ("__eq__", Own); ("__ne__", Own); ("_getArgsAsStr", Own); ("__str__", Own)];
  (* commands/logvol.py:88-105 *) mkClassdef "FC4_LogVolData" ["FC3_LogVolData"]
    [("__init__", Own); ("_getArgsAsStr", Own)];
  (* commands/logvol.py:107-125 *) mkClassdef "RHEL5_LogVolData" ["FC4_LogVolData"]
    [("__init__", Own); ("_getArgsAsStr", Own)];
  (* commands/logvol.py:127-151 *) mkClassdef "F9_LogVolData" ["FC4_LogVolData"]
    [("__init__", Own); ("_getArgsAsStr", Own)];
  (* commands/logvol.py:153-173 *) mkClassdef "F12_LogVolData" ["F9_LogVolData"]
    [("__init__", Own); ("_getArgsAsStr", Own)];
  (* commands/logvol.py:175-216 *) mkClassdef "RHEL6_LogVolData" ["F12_LogVolData"]
    [("__init__", Own); ("_getArgsAsStr", Own)];
  (* commands/logvol.py:218-219 *) mkClassdef "F14_LogVolData" ["F12_LogVolData"]
    [];
  (* commands/logvol.py:221-235 *) mkClassdef "F15_LogVolData" ["F14_LogVolData"]
    [("__init__", Own); ("_getArgsAsStr", Own)];
  (* commands/logvol.py:237-250 *) mkClassdef "F17_LogVolData" ["F15_LogVolData"]
    [("__init__", Own); ("_getArgsAsStr", Own)];
  (* commands/logvol.py:252-270 *) mkClassdef "F18_LogVolData" ["F17_LogVolData"]
    [("__init__", Own); ("_getArgsAsStr", Own)];
  (* commands/logvol.py:272-301 *) mkClassdef "F20_LogVolData" ["F18_LogVolData"]
    [("__init__", Own); ("_getArgsAsStr", Own)];
  (* commands/logvol.py:303-317 *) mkClassdef "F21_LogVolData" ["F20_LogVolData"]
    [("__init__", Own); ("_getArgsAsStr", Own)];
  (* commands/logvol.py:319-333 *) mkClassdef "RHEL7_LogVolData" ["F21_LogVolData"]
    [("__init__", Own); ("_getArgsAsStr", Own)];
  (* commands/logvol.py:335-355 *) mkClassdef "F23_LogVolData" ["F21_LogVolData"]
    [("__init__", Own); ("_getArgsAsStr", Own)];
  (* commands/logvol.py:357-384 *) mkClassdef "F29_LogVolData" ["F23_LogVolData"]
    [("__init__", Own); ("_getArgsAsStr", Own)];
  (* commands/logvol.py:386-387 *) mkClassdef "RHEL8_LogVolData" ["F29_LogVolData"]
    [];
  (* commands/logvol.py:389-491 *) mkClassdef "FC3_LogVol" ["KickstartCommand"]
    [("__init__", Own); ("__str__", Own); ("_getParser", Own); ("parse", Own); ("dataList", Own); ("dataClass", Own)];
  (* commands/logvol.py:493-506 *) mkClassdef "FC4_LogVol" ["FC3_LogVol"]
    [("_getParser", Own)];
  (* commands/logvol.py:508-525 *) mkClassdef "RHEL5_LogVol" ["FC4_LogVol"]
    [("_getParser", Own)];
  (* commands/logvol.py:527-554 *) mkClassdef "F9_LogVol" ["FC4_LogVol"]
    [("_getParser", Own)];
  (* commands/logvol.py:556-577 *) mkClassdef "F12_LogVol" ["F9_LogVol"]
    [("_getParser", Own)];
  (* commands/logvol.py:579-642 *) mkClassdef "RHEL6_LogVol" ["F12_LogVol"]
    [("_getParser", Own); ("parse", Own)];
  (* commands/logvol.py:644-651 *) mkClassdef "F14_LogVol" ["F12_LogVol"]
    [("_getParser", Own)];
  (* commands/logvol.py:653-663 *) mkClassdef "F15_LogVol" ["F14_LogVol"]
    [("_getParser", Own)];
  (* commands/logvol.py:665-688 *) mkClassdef "F17_LogVol" ["F15_LogVol"]
    [("_getParser", Own); ("parse", Own)];
  (* commands/logvol.py:690-706 *) mkClassdef "F18_LogVol" ["F17_LogVol"]
    [("_getParser", Own)];
  (* commands/logvol.py:708-769 *) mkClassdef "F20_LogVol" ["F18_LogVol"]
    [("_getParser", Own); ("parse", Own)];
  (* commands/logvol.py:771-790 *) mkClassdef "F21_LogVol" ["F20_LogVol"]
    [("_getParser", Own); ("parse", Own)];
  (* commands/logvol.py:792-817 *) mkClassdef "RHEL7_LogVol" ["F21_LogVol"]
    [("_getParser", Own); ("parse", Own)];
  (* commands/logvol.py:820-874 *) mkClassdef "F23_LogVol" ["F21_LogVol"]
    [("_getParser", Own); ("parse", Own)];
  (* commands/logvol.py:876-922 *) mkClassdef "F29_LogVol" ["F23_LogVol"]
    [("_getParser", Own); ("parse", Own)];
  (* commands/logvol.py:924-944 *) mkClassdef "RHEL8_LogVol" ["F29_LogVol"]
    [("parse", Own); ("_getParser", Own)]].

(** commands/mediacheck.py *)
Definition classes_mediacheck : list classdef := [
  (* commands/mediacheck.py:24-51 *) mkClassdef "FC4_MediaCheck" ["KickstartCommand"]
    [("__init__", Own); ("__str__", Own); ("_getParser", Own); ("parse", Own)]].

(** commands/method.py *)
Definition classes_method : list classdef := [
  (* commands/method.py:24-109 *) mkClassdef "FC3_Method" ["KickstartCommand"]
    [("_clear_seen", Own); ("_get_command", Own); ("method", Own); ("__getattr__", Own); ("__setattr__", Own); ("_getParser", Own)];
  (* commands/method.py:114-115 *) mkClassdef "FC6_Method" ["FC3_Method"]
    [];
  (* commands/method.py:117-118 *) mkClassdef "F13_Method" ["FC6_Method"]
    [];
  (* commands/method.py:120-121 *) mkClassdef "F14_Method" ["F13_Method"]
    [];
  (* commands/method.py:123-124 *) mkClassdef "RHEL6_Method" ["F14_Method"]
    [];
  (* commands/method.py:126-127 *) mkClassdef "F18_Method" ["F14_Method"]
    [];
  (* commands/method.py:129-133 *) mkClassdef "F19_Method" ["FC3_Method"]
    [];
  (* commands/method.py:135-139 *) mkClassdef "RHEL7_Method" ["F19_Method"]
    [];
  (* commands/method.py:141-142 *) mkClassdef "F28_Method" ["RHEL7_Method"]
    [];
  (* commands/method.py:144-151 *) mkClassdef "F34_Method" ["DeprecatedCommand"; "F19_Method"]
    [("__init__", Calls "DeprecatedCommand"); ("_getParser", Own)]].

(** commands/module.py *)
Definition classes_module : list classdef := [
  (* commands/module.py:29-61 *) mkClassdef "F29_ModuleData" ["BaseData"]
    [("__init__", Own); ("__eq__", Own); ("__ne__", Own); ("__str__", Own); ("_getArgsAsStr", Own)];
  (* commands/module.py:63-78 *) mkClassdef "RHEL8_ModuleData" ["F29_ModuleData"]
    [("__init__", Own); ("_getArgsAsStr", Own)];
  (* commands/module.py:80-82 *) mkClassdef "F31_ModuleData" ["RHEL8_ModuleData"]
    [];
  (* commands/module.py:84-151 *) mkClassdef "F29_Module" ["KickstartCommand"]
    [("__init__", Own); ("__str__", Own); ("_getParser", Own); ("parse", Own); ("dataList", Own); ("dataClass", Own)];
  (* commands/module.py:153-163 *) mkClassdef "RHEL8_Module" ["F29_Module"]
    [("_getParser", Own)];
  (* commands/module.py:165-167 *) mkClassdef "F31_Module" ["RHEL8_Module"]
    []].

(** commands/monitor.py *)
Definition classes_monitor : list classdef := [
  (* commands/monitor.py:24-77 *) mkClassdef "FC3_Monitor" ["KickstartCommand"]
    [("__init__", Own); ("__str__", Own); ("_getParser", Own); ("parse", Own)];
  (* commands/monitor.py:79-109 *) mkClassdef "FC6_Monitor" ["FC3_Monitor"]
    [("__init__", Own); ("__str__", Own); ("_getParser", Own)];
  (* commands/monitor.py:111-118 *) mkClassdef "F10_Monitor" ["DeprecatedCommand"; "FC6_Monitor"]
    [("__init__", Calls "DeprecatedCommand"); ("_getParser", Own)];
  (* commands/monitor.py:120-124 *) mkClassdef "F18_Monitor" ["RemovedCommand"; "F10_Monitor"]
    [("_getParser", Own)]].

(** commands/mount.py *)
Definition classes_mount : list classdef := [
  (* commands/mount.py:28-71 *) mkClassdef "F27_MountData" ["BaseData"]
    [("__init__", Own); ("__eq__", Own); ("__ne__", Own); ("_getArgsAsStr", Own); ("__str__", Own)];
  (* commands/mount.py:74-209 *) mkClassdef "F27_Mount" ["KickstartCommand"]
    [("__init__", Own); ("__str__", Own); ("_getParser", Own); ("parse", Own); ("dataList", Own); ("dataClass", Own)]].

(** commands/mouse.py *)
Definition classes_mouse : list classdef := [
  (* commands/mouse.py:27-72 *) mkClassdef "RHEL3_Mouse" ["KickstartCommand"]
    [("__init__", Own); ("__str__", Own); ("_getParser", Own); ("parse", Own)];
  (* commands/mouse.py:74-81 *) mkClassdef "FC3_Mouse" ["DeprecatedCommand"; "RHEL3_Mouse"]
    [("__init__", Calls "DeprecatedCommand"); ("_getParser", Own)];
  (* commands/mouse.py:83-87 *) mkClassdef "F7_Mouse" ["RemovedCommand"; "FC3_Mouse"]
    [("_getParser", Own)]].

(** commands/multipath.py *)
Definition classes_multipath : list classdef := [
  (* commands/multipath.py:28-40 *) mkClassdef "FC6_MpPathData" ["BaseData"]
    [("__init__", Own); ("__str__", Own)];
  (* commands/multipath.py:42-57 *) mkClassdef "FC6_MultiPathData" ["BaseData"]
    [("__init__", Own); ("__str__", Own)];
  (* commands/multipath.py:59-116 *) mkClassdef "FC6_MultiPath" ["KickstartCommand"]
    [("__init__", Own); ("__str__", Own); ("_getParser", Own); ("parse", Own); ("dataList", Own); ("dataClass", Own)];
  (* commands/multipath.py:118-125 *) mkClassdef "F24_MultiPath" ["DeprecatedCommand"; "FC6_MultiPath"]
    [("__init__", Calls "DeprecatedCommand"); ("_getParser", Own)];
  (* commands/multipath.py:127-131 *) mkClassdef "F34_MultiPath" ["RemovedCommand"; "F24_MultiPath"]
    [("_getParser", Own)]].

(** commands/network.py *)
Definition classes_network : list classdef := [
  (* commands/network.py:34-101 *) mkClassdef "FC3_NetworkData" ["BaseData"]
    [("__init__", Own); ("__eq__", Own); ("__ne__", Own); ("_getArgsAsStr", Own); ("__str__", Own)];
  (* commands/network.py:103-117 *) mkClassdef "FC4_NetworkData" ["FC3_NetworkData"]
    [("__init__", Own); ("_getArgsAsStr", Own)];
  (* commands/network.py:119-136 *) mkClassdef "FC6_NetworkData" ["FC4_NetworkData"]
    [("__init__", Own); ("_getArgsAsStr", Own)];
  (* commands/network.py:138-152 *) mkClassdef "F8_NetworkData" ["FC6_NetworkData"]
    [("__init__", Own); ("_getArgsAsStr", Own)];
  (* commands/network.py:154-174 *) mkClassdef "F16_NetworkData" ["F8_NetworkData"]
    [("__init__", Own); ("_getArgsAsStr", Own)];
  (* commands/network.py:176-199 *) mkClassdef "F19_NetworkData" ["F16_NetworkData"]
    [("__init__", Own); ("_getArgsAsStr", Own)];
  (* commands/network.py:201-224 *) mkClassdef "F20_NetworkData" ["F19_NetworkData"]
    [("__init__", Own); ("_getArgsAsStr", Own)];
  (* commands/network.py:226-239 *) mkClassdef "F21_NetworkData" ["F20_NetworkData"]
    [("__init__", Own); ("_getArgsAsStr", Own)];
  (* commands/network.py:241-257 *) mkClassdef "F22_NetworkData" ["F21_NetworkData"]
    [("__init__", Own); ("_getArgsAsStr", Own)];
  (* commands/network.py:259-267 *) mkClassdef "F25_NetworkData" ["F22_NetworkData"]
    [("_getArgsAsStr", Own)];
  (* commands/network.py:269-281 *) mkClassdef "F27_NetworkData" ["F25_NetworkData"]
    [("__init__", Own); ("_getArgsAsStr", Own)];
  (* commands/network.py:283-297 *) mkClassdef "RHEL4_NetworkData" ["FC3_NetworkData"]
    [("__init__", Own); ("_getArgsAsStr", Own)];
  (* commands/network.py:299-325 *) mkClassdef "RHEL6_NetworkData" ["F8_NetworkData"]
    [("__init__", Own); ("_getArgsAsStr", Own)];
  (* commands/network.py:327-348 *) mkClassdef "RHEL7_NetworkData" ["F21_NetworkData"]
    [("__init__", Own); ("_getArgsAsStr", Own)];
  (* commands/network.py:350-480 *) mkClassdef "FC3_Network" ["KickstartCommand"]
    [("__init__", Own); ("__str__", Own); ("_getParser", Own); ("parse", Own); ("dataList", Own); ("dataClass", Own)];
  (* commands/network.py:482-491 *) mkClassdef "FC4_Network" ["FC3_Network"]
    [("_getParser", Own)];
  (* commands/network.py:493-503 *) mkClassdef "FC6_Network" ["FC4_Network"]
    [("_getParser", Own)];
  (* commands/network.py:505-517 *) mkClassdef "F8_Network" ["FC6_Network"]
    [("_getParser", Own)];
  (* commands/network.py:519-537 *) mkClassdef "F9_Network" ["F8_Network"]
    [("__init__", Own); ("_getParser", Own)];
  (* commands/network.py:539-568 *) mkClassdef "F16_Network" ["F9_Network"]
    [("__init__", Own); ("_getParser", Own)];
  (* commands/network.py:570-577 *) mkClassdef "F18_Network" ["F16_Network"]
    [("hostname", Own)];
  (* commands/network.py:579-612 *) mkClassdef "F19_Network" ["F18_Network"]
    [("_getParser", Own)];
  (* commands/network.py:614-679 *) mkClassdef "F20_Network" ["F19_Network"]
    [("_getParser", Own)];
  (* commands/network.py:681-704 *) mkClassdef "F21_Network" ["F20_Network"]
    [("_getParser", Own)];
  (* commands/network.py:706-743 *) mkClassdef "F22_Network" ["F21_Network"]
    [("_getParser", Own); ("parse", Own)];
  (* commands/network.py:745-756 *) mkClassdef "F24_Network" ["F22_Network"]
    [("parse", Own)];
  (* commands/network.py:758-768 *) mkClassdef "F25_Network" ["F24_Network"]
    [("_getParser", Own)];
  (* commands/network.py:770-825 *) mkClassdef "F27_Network" ["F25_Network"]
    [("__init__", Own); ("_getParser", Own); ("parse", Own)];
  (* commands/network.py:827-835 *) mkClassdef "RHEL4_Network" ["FC3_Network"]
    [("_getParser", Own)];
  (* commands/network.py:837-855 *) mkClassdef "RHEL5_Network" ["FC6_Network"]
    [("__init__", Own); ("_getParser", Own)];
  (* commands/network.py:857-917 *) mkClassdef "RHEL6_Network" ["F9_Network"]
    [("__init__", Own); ("_getParser", Own)];
  (* commands/network.py:961-1051 *) mkClassdef "RHEL7_Network" ["F21_Network"]
    [("__init__", Own); ("_getParser", Own); ("parse", Own)]].

(** commands/nfs.py *)
Definition classes_nfs : list classdef := [
  (* commands/nfs.py:24-73 *) mkClassdef "FC3_NFS" ["KickstartCommand"]
    [("__init__", Own); ("__eq__", Own); ("__ne__", Own); ("__str__", Own); ("_getParser", Own); ("parse", Own)];
  (* commands/nfs.py:75-106 *) mkClassdef "FC6_NFS" ["FC3_NFS"]
    [("__init__", Own); ("__eq__", Own); ("__str__", Own); ("_getParser", Own)]].

(** commands/nvdimm.py *)
Definition classes_nvdimm : list classdef := [
  (* commands/nvdimm.py:32-74 *) mkClassdef "F28_NvdimmData" ["BaseData"]
    [("__init__", Own); ("__eq__", Own); ("__ne__", Own); ("_getArgsAsStr", Own); ("__str__", Own)];
  (* commands/nvdimm.py:77-172 *) mkClassdef "F28_Nvdimm" ["KickstartCommand"]
    [("__init__", Own); ("__str__", Own); ("_getParser", Own); ("parse", Own); ("dataList", Own); ("dataClass", Own)]].

(** commands/ostreesetup.py *)
Definition classes_ostreesetup : list classdef := [
  (* commands/ostreesetup.py:23-86 *) mkClassdef "F21_OSTreeSetup" ["KickstartCommand"]
    [("__init__", Own); ("__str__", Own); ("_getArgsAsStr", Own); ("_getParser", Own); ("parse", Own)];
  (* commands/ostreesetup.py:88-89 *) mkClassdef "RHEL7_OSTreeSetup" ["F21_OSTreeSetup"]
    [];
  (* commands/ostreesetup.py:91-92 *) mkClassdef "RHEL8_OSTreeSetup" ["F21_OSTreeSetup"]
    []].

(** commands/partition.py *)
Definition classes_partition : list classdef := [
  (* commands/partition.py:29-94 *) mkClassdef "FC3_PartData" ["BaseData"]
    [("__init__", Own); ("__eq__", Own); ("__ne__", Own); ("_getArgsAsStr", Own); ("__str__", Own)];
  (* commands/partition.py:96-116 *) mkClassdef "FC4_PartData" ["FC3_PartData"]
    [("__init__", Own); ("_getArgsAsStr", Own)];
  (* commands/partition.py:118-136 *) mkClassdef "RHEL5_PartData" ["FC4_PartData"]
    [("__init__", Own); ("_getArgsAsStr", Own)];
  (* commands/partition.py:138-163 *) mkClassdef "F9_PartData" ["FC4_PartData"]
    [("__init__", Own); ("_getArgsAsStr", Own)];
  (* commands/partition.py:165-167 *) mkClassdef "F11_PartData" ["F9_PartData"]
    [];
  (* commands/partition.py:169-188 *) mkClassdef "F12_PartData" ["F11_PartData"]
    [("__init__", Own); ("_getArgsAsStr", Own)];
  (* commands/partition.py:190-208 *) mkClassdef "RHEL6_PartData" ["F12_PartData"]
    [("__init__", Own); ("_getArgsAsStr", Own)];
  (* commands/partition.py:210-211 *) mkClassdef "F14_PartData" ["F12_PartData"]
    [];
  (* commands/partition.py:213-228 *) mkClassdef "F17_PartData" ["F14_PartData"]
    [("__init__", Own); ("_getArgsAsStr", Own)];
  (* commands/partition.py:230-249 *) mkClassdef "F18_PartData" ["F17_PartData"]
    [("__init__", Own); ("_getArgsAsStr", Own)];
  (* commands/partition.py:251-263 *) mkClassdef "F23_PartData" ["F18_PartData"]
    [("__init__", Own); ("_getArgsAsStr", Own)];
  (* commands/partition.py:265-266 *) mkClassdef "RHEL7_PartData" ["F23_PartData"]
    [];
  (* commands/partition.py:268-295 *) mkClassdef "F29_PartData" ["F23_PartData"]
    [("__init__", Own); ("_getArgsAsStr", Own)];
  (* commands/partition.py:297-298 *) mkClassdef "RHEL8_PartData" ["F29_PartData"]
    [];
  (* commands/partition.py:300-457 *) mkClassdef "FC3_Partition" ["KickstartCommand"]
    [("__init__", Own); ("__str__", Own); ("_getParser", Own); ("parse", Own); ("dataList", Own); ("dataClass", Own)];
  (* commands/partition.py:459-477 *) mkClassdef "FC4_Partition" ["FC3_Partition"]
    [("_getParser", Own)];
  (* commands/partition.py:479-494 *) mkClassdef "RHEL5_Partition" ["FC4_Partition"]
    [("_getParser", Own)];
  (* commands/partition.py:496-521 *) mkClassdef "F9_Partition" ["FC4_Partition"]
    [("_getParser", Own)];
  (* commands/partition.py:523-531 *) mkClassdef "F11_Partition" ["F9_Partition"]
    [("_getParser", Own)];
  (* commands/partition.py:533-554 *) mkClassdef "F12_Partition" ["F11_Partition"]
    [("_getParser", Own)];
  (* commands/partition.py:556-581 *) mkClassdef "RHEL6_Partition" ["F12_Partition"]
    [("_getParser", Own); ("parse", Own)];
  (* commands/partition.py:583-592 *) mkClassdef "F14_Partition" ["F12_Partition"]
    [("_getParser", Own)];
  (* commands/partition.py:594-616 *) mkClassdef "F17_Partition" ["F14_Partition"]
    [("_getParser", Own); ("parse", Own)];
  (* commands/partition.py:618-633 *) mkClassdef "F18_Partition" ["F17_Partition"]
    [("_getParser", Own)];
  (* commands/partition.py:635-658 *) mkClassdef "F20_Partition" ["F18_Partition"]
    [("parse", Own)];
  (* commands/partition.py:660-687 *) mkClassdef "F23_Partition" ["F20_Partition"]
    [("_getParser", Own); ("parse", Own)];
  (* commands/partition.py:689-690 *) mkClassdef "RHEL7_Partition" ["F23_Partition"]
    [];
  (* commands/partition.py:692-740 *) mkClassdef "F29_Partition" ["F23_Partition"]
    [("_getParser", Own); ("parse", Own)];
  (* commands/partition.py:742-762 *) mkClassdef "RHEL8_Partition" ["F29_Partition"]
    [("parse", Own); ("_getParser", Own)];
  (* commands/partition.py:764-771 *) mkClassdef "F34_Partition" ["F29_Partition"]
    [("_getParser", Own)]].

(** commands/raid.py *)
Definition classes_raid : list classdef := [
  (* commands/raid.py:30-84 *) mkClassdef "FC3_RaidData" ["BaseData"]
    [("__init__", Own); ("__eq__", Own); ("__ne__", Own); ("_getArgsAsStr", Own); ("__str__", Own)];
  (* commands/raid.py:86-100 *) mkClassdef "FC4_RaidData" ["FC3_RaidData"]
    [("__init__", Own); ("_getArgsAsStr", Own)];
  (* commands/raid.py:102-116 *) mkClassdef "FC5_RaidData" ["FC4_RaidData"]
    [("__init__", Own); ("_getArgsAsStr", Own)];
  (* commands/raid.py:118-136 *) mkClassdef "RHEL5_RaidData" ["FC5_RaidData"]
    [("__init__", Own); ("_getArgsAsStr", Own)];
  (* commands/raid.py:138-139 *) mkClassdef "F7_RaidData" ["FC5_RaidData"]
    [];
  (* commands/raid.py:141-164 *) mkClassdef "F9_RaidData" ["F7_RaidData"]
    [("__init__", Own); ("_getArgsAsStr", Own)];
  (* commands/raid.py:166-185 *) mkClassdef "F12_RaidData" ["F9_RaidData"]
    [("__init__", Own); ("_getArgsAsStr", Own)];
  (* commands/raid.py:187-188 *) mkClassdef "F13_RaidData" ["F12_RaidData"]
    [];
  (* commands/raid.py:190-205 *) mkClassdef "RHEL6_RaidData" ["F13_RaidData"]
    [("__init__", Own); ("_getArgsAsStr", Own)];
  (* commands/raid.py:207-208 *) mkClassdef "F14_RaidData" ["F13_RaidData"]
    [];
  (* commands/raid.py:210-226 *) mkClassdef "F15_RaidData" ["F14_RaidData"]
    [("__init__", Own); ("_getArgsAsStr", Own)];
  (* commands/raid.py:228-243 *) mkClassdef "F18_RaidData" ["F15_RaidData"]
    [("__init__", Own); ("_getArgsAsStr", Own)];
  (* commands/raid.py:245-259 *) mkClassdef "F23_RaidData" ["F18_RaidData"]
    [("__init__", Own); ("_getArgsAsStr", Own)];
  (* commands/raid.py:261-275 *) mkClassdef "F25_RaidData" ["F23_RaidData"]
    [("__init__", Own); ("_getArgsAsStr", Own)];
  (* commands/raid.py:277-278 *) mkClassdef "RHEL7_RaidData" ["F25_RaidData"]
    [];
  (* commands/raid.py:280-307 *) mkClassdef "F29_RaidData" ["F25_RaidData"]
    [("__init__", Own); ("_getArgsAsStr", Own)];
  (* commands/raid.py:309-310 *) mkClassdef "RHEL8_RaidData" ["F29_RaidData"]
    [];
  (* commands/raid.py:312-473 *) mkClassdef "FC3_Raid" ["KickstartCommand"]
    [("__init__", Own); ("__str__", Own); ("_getParser", Own); ("_getDevice", Own); ("parse", Own); ("dataList", Own); ("dataClass", Own)];
  (* commands/raid.py:475-486 *) mkClassdef "FC4_Raid" ["FC3_Raid"]
    [("_getParser", Own)];
  (* commands/raid.py:488-496 *) mkClassdef "FC5_Raid" ["FC4_Raid"]
    [("_getParser", Own)];
  (* commands/raid.py:498-528 *) mkClassdef "RHEL5_Raid" ["FC5_Raid"]
    [("__init__", Own); ("_getParser", Own)];
  (* commands/raid.py:530-549 *) mkClassdef "F7_Raid" ["FC5_Raid"]
    [("__init__", Own); ("_getParser", Own)];
  (* commands/raid.py:551-576 *) mkClassdef "F9_Raid" ["F7_Raid"]
    [("_getParser", Own)];
  (* commands/raid.py:578-599 *) mkClassdef "F12_Raid" ["F9_Raid"]
    [("_getParser", Own)];
  (* commands/raid.py:601-620 *) mkClassdef "F13_Raid" ["F12_Raid"]
    [("__init__", Own); ("_getParser", Own)];
  (* commands/raid.py:622-642 *) mkClassdef "RHEL6_Raid" ["F13_Raid"]
    [("_getParser", Own); ("parse", Own)];
  (* commands/raid.py:644-651 *) mkClassdef "F14_Raid" ["F13_Raid"]
    [("_getParser", Own)];
  (* commands/raid.py:653-663 *) mkClassdef "F15_Raid" ["F14_Raid"]
    [("_getParser", Own)];
  (* commands/raid.py:665-675 *) mkClassdef "F18_Raid" ["F15_Raid"]
    [("_getParser", Own)];
  (* commands/raid.py:677-682 *) mkClassdef "F19_Raid" ["F18_Raid"]
    [("_getDevice", Own)];
  (* commands/raid.py:684-700 *) mkClassdef "F20_Raid" ["F19_Raid"]
    [("parse", Own)];
  (* commands/raid.py:702-727 *) mkClassdef "F23_Raid" ["F20_Raid"]
    [("_getParser", Own); ("parse", Own)];
  (* commands/raid.py:729-739 *) mkClassdef "F25_Raid" ["F23_Raid"]
    [("_getParser", Own)];
  (* commands/raid.py:741-742 *) mkClassdef "RHEL7_Raid" ["F25_Raid"]
    [];
  (* commands/raid.py:744-790 *) mkClassdef "F29_Raid" ["F25_Raid"]
    [("_getParser", Own); ("parse", Own)];
  (* commands/raid.py:792-812 *) mkClassdef "RHEL8_Raid" ["F29_Raid"]
    [("parse", Own); ("_getParser", Own)]].

(** commands/realm.py *)
Definition classes_realm : list classdef := [
  (* commands/realm.py:31-104 *) mkClassdef "F19_Realm" ["KickstartCommand"]
    [("__init__", Own); ("_parseArguments", Own); ("_parseJoin", Own); ("_getCommandsAsStrings", Own); ("__str__", Own); ("parse", Own); ("_getParser", Own)]].

(** commands/reboot.py *)
Definition classes_reboot : list classdef := [
  (* commands/reboot.py:26-78 *) mkClassdef "FC3_Reboot" ["KickstartCommand"]
    [("__init__", Own); ("_getArgsAsStr", Own); ("__str__", Own); ("parse", Own); ("_getParser", Own)];
  (* commands/reboot.py:81-111 *) mkClassdef "FC6_Reboot" ["FC3_Reboot"]
    [("__init__", Own); ("_getArgsAsStr", Own); ("_getParser", Own); ("parse", Own)];
  (* commands/reboot.py:113-151 *) mkClassdef "F18_Reboot" ["FC6_Reboot"]
    [("__init__", Own); ("__str__", Own); ("parse", Own); ("_getParser", Own)];
  (* commands/reboot.py:153-177 *) mkClassdef "F23_Reboot" ["F18_Reboot"]
    [("__init__", Own); ("_getArgsAsStr", Own); ("_getParser", Own)]].

(** commands/repo.py *)
Definition classes_repo : list classdef := [
  (* commands/repo.py:30-62 *) mkClassdef "FC6_RepoData" ["BaseData"]
    [("__init__", Own); ("__eq__", Own); ("__ne__", Own); ("_getArgsAsStr", Own); ("__str__", Own)];
  (* commands/repo.py:64-84 *) mkClassdef "F8_RepoData" ["FC6_RepoData"]
    [("__init__", Own); ("_getArgsAsStr", Own)];
  (* commands/repo.py:86-99 *) mkClassdef "F11_RepoData" ["F8_RepoData"]
    [("__init__", Own); ("_getArgsAsStr", Own)];
  (* commands/repo.py:101-115 *) mkClassdef "F13_RepoData" ["F11_RepoData"]
    [("__init__", Own); ("_getArgsAsStr", Own)];
  (* commands/repo.py:117-131 *) mkClassdef "F14_RepoData" ["F13_RepoData"]
    [("__init__", Own); ("_getArgsAsStr", Own)];
  (* commands/repo.py:133-134 *) mkClassdef "RHEL6_RepoData" ["F14_RepoData"]
    [];
  (* commands/repo.py:136-137 *) mkClassdef "F15_RepoData" ["F14_RepoData"]
    [];
  (* commands/repo.py:139-153 *) mkClassdef "F21_RepoData" ["F15_RepoData"]
    [("__init__", Own); ("_getArgsAsStr", Own)];
  (* commands/repo.py:155-169 *) mkClassdef "F27_RepoData" ["F21_RepoData"]
    [("__init__", Own); ("_getArgsAsStr", Own)];
  (* commands/repo.py:171-193 *) mkClassdef "F30_RepoData" ["F27_RepoData"]
    [("__init__", Own); ("_getArgsAsStr", Own)];
  (* commands/repo.py:195-196 *) mkClassdef "RHEL7_RepoData" ["F21_RepoData"]
    [];
  (* commands/repo.py:198-199 *) mkClassdef "RHEL8_RepoData" ["F30_RepoData"]
    [];
  (* commands/repo.py:201-303 *) mkClassdef "FC6_Repo" ["KickstartCommand"]
    [("__init__", Own); ("__str__", Own); ("_getParser", Own); ("parse", Own); ("dataList", Own); ("dataClass", Own)];
  (* commands/repo.py:305-346 *) mkClassdef "F8_Repo" ["FC6_Repo"]
    [("__str__", Own); ("_getParser", Own); ("methodToRepo", Own)];
  (* commands/repo.py:348-360 *) mkClassdef "F11_Repo" ["F8_Repo"]
    [("_getParser", Own)];
  (* commands/repo.py:362-377 *) mkClassdef "F13_Repo" ["F11_Repo"]
    [("_getParser", Own)];
  (* commands/repo.py:379-391 *) mkClassdef "F14_Repo" ["F13_Repo"]
    [("_getParser", Own)];
  (* commands/repo.py:393-394 *) mkClassdef "RHEL6_Repo" ["F14_Repo"]
    [];
  (* commands/repo.py:396-413 *) mkClassdef "F15_Repo" ["F14_Repo"]
    [("_getParser", Own)];
  (* commands/repo.py:415-425 *) mkClassdef "F21_Repo" ["F15_Repo"]
    [("_getParser", Own)];
  (* commands/repo.py:427-453 *) mkClassdef "F27_Repo" ["F21_Repo"]
    [("__init__", Own); ("_getParser", Own)];
  (* commands/repo.py:455-482 *) mkClassdef "F30_Repo" ["F27_Repo"]
    [("_getParser", Own)];
  (* commands/repo.py:484-491 *) mkClassdef "F33_Repo" ["F30_Repo"]
    [("_getParser", Own)];
  (* commands/repo.py:493-494 *) mkClassdef "RHEL7_Repo" ["F21_Repo"]
    [];
  (* commands/repo.py:496-497 *) mkClassdef "RHEL8_Repo" ["F30_Repo"]
    []].

(** commands/reqpart.py *)
Definition classes_reqpart : list classdef := [
  (* commands/reqpart.py:27-89 *) mkClassdef "F23_ReqPart" ["KickstartCommand"]
    [("__init__", Own); ("_getArgsAsStr", Own); ("__str__", Own); ("_getParser", Own); ("parse", Own)];
  (* commands/reqpart.py:91-92 *) mkClassdef "RHEL7_ReqPart" ["F23_ReqPart"]
    []].

(** commands/rescue.py *)
Definition classes_rescue : list classdef := [
  (* commands/rescue.py:27-81 *) mkClassdef "F10_Rescue" ["KickstartCommand"]
    [("__init__", Own); ("__str__", Own); ("_getParser", Own); ("parse", Own)]].

(** commands/rhsm.py *)
Definition classes_rhsm : list classdef := [
  (* commands/rhsm.py:26-112 *) mkClassdef "RHEL8_RHSM" ["KickstartCommand"]
    [("__init__", Own); ("__str__", Own); ("_getParser", Own); ("parse", Own)]].

(** commands/rootpw.py *)
Definition classes_rootpw : list classdef := [
  (* commands/rootpw.py:29-91 *) mkClassdef "FC3_RootPw" ["KickstartCommand"]
    [("__init__", Own); ("_getArgsAsStr", Own); ("__str__", Own); ("_getParser", Own); ("parse", Own)];
  (* commands/rootpw.py:93-124 *) mkClassdef "F8_RootPw" ["FC3_RootPw"]
    [("__init__", Own); ("_getArgsAsStr", Own); ("_getParser", Own)];
  (* commands/rootpw.py:126-148 *) mkClassdef "F18_RootPw" ["F8_RootPw"]
    [("__str__", Own); ("parse", Own)]].

(** commands/selinux.py *)
Definition classes_selinux : list classdef := [
  (* commands/selinux.py:25-78 *) mkClassdef "FC3_SELinux" ["KickstartCommand"]
    [("__init__", Own); ("__str__", Own); ("_getParser", Own); ("parse", Own)]].

(** commands/services.py *)
Definition classes_services : list classdef := [
  (* commands/services.py:27-78 *) mkClassdef "FC6_Services" ["KickstartCommand"]
    [("__init__", Own); ("__str__", Own); ("_getParser", Own); ("parse", Own)]].

(** commands/skipx.py *)
Definition classes_skipx : list classdef := [
  (* commands/skipx.py:24-50 *) mkClassdef "FC3_SkipX" ["KickstartCommand"]
    [("__init__", Own); ("__str__", Own); ("_getParser", Own); ("parse", Own)]].

(** commands/snapshot.py *)
Definition classes_snapshot : list classdef := [
  (* commands/snapshot.py:30-63 *) mkClassdef "F26_SnapshotData" ["BaseData"]
    [("__init__", Own); ("__eq__", Own); ("__ne__", Own); ("_getArgsAsStr", Own); ("__str__", Own)];
  (* commands/snapshot.py:66-147 *) mkClassdef "F26_Snapshot" ["KickstartCommand"]
    [("__init__", Own); ("__str__", Own); ("_when_cb", Own); ("_getParser", Own); ("parse", Own); ("dataList", Own); ("dataClass", Own)]].

(** commands/sshkey.py *)
Definition classes_sshkey : list classdef := [
  (* commands/sshkey.py:28-59 *) mkClassdef "F22_SshKeyData" ["BaseData"]
    [("__init__", Own); ("__eq__", Own); ("__ne__", Own); ("__str__", Own); ("_getArgsAsStr", Own)];
  (* commands/sshkey.py:61-118 *) mkClassdef "F22_SshKey" ["KickstartCommand"]
    [("__init__", Own); ("__str__", Own); ("_getParser", Own); ("parse", Own); ("dataList", Own); ("dataClass", Own)]].

(** commands/sshpw.py *)
Definition classes_sshpw : list classdef := [
  (* commands/sshpw.py:28-68 *) mkClassdef "F13_SshPwData" ["BaseData"]
    [("__init__", Own); ("__eq__", Own); ("__ne__", Own); ("__str__", Own); ("_getArgsAsStr", Own)];
  (* commands/sshpw.py:70-93 *) mkClassdef "F24_SshPwData" ["F13_SshPwData"]
    [("__init__", Own); ("_getArgsAsStr", Own)];
  (* commands/sshpw.py:95-179 *) mkClassdef "F13_SshPw" ["KickstartCommand"]
    [("__init__", Own); ("__str__", Own); ("_getParser", Own); ("parse", Own); ("dataList", Own); ("dataClass", Own)];
  (* commands/sshpw.py:181-191 *) mkClassdef "F24_SshPw" ["F13_SshPw"]
    [("_getParser", Own)]].

(** commands/syspurpose.py *)
Definition classes_syspurpose : list classdef := [
  (* commands/syspurpose.py:28-90 *) mkClassdef "RHEL8_Syspurpose" ["KickstartCommand"]
    [("__init__", Own); ("__str__", Own); ("_getParser", Own); ("parse", Own)]].

(** commands/timesource.py *)
Definition classes_timesource : list classdef := [
  (* commands/timesource.py:25-74 *) mkClassdef "F33_TimesourceData" ["BaseData"]
    [("__init__", Own); ("__eq__", Own); ("__ne__", Own); ("__str__", Own); ("_getArgsAsStr", Own)];
  (* commands/timesource.py:77-148 *) mkClassdef "F33_Timesource" ["KickstartCommand"]
    [("__init__", Own); ("__str__", Own); ("_getParser", Own); ("parse", Own); ("dataList", Own); ("dataClass", Own)]].

(** commands/timezone.py *)
Definition classes_timezone : list classdef := [
  (* commands/timezone.py:28-85 *) mkClassdef "FC3_Timezone" ["KickstartCommand"]
    [("__init__", Own); ("__str__", Own); ("_getParser", Own); ("parse", Own)];
  (* commands/timezone.py:87-109 *) mkClassdef "FC6_Timezone" ["FC3_Timezone"]
    [("__str__", Own); ("_getParser", Own)];
  (* commands/timezone.py:111-174 *) mkClassdef "F18_Timezone" ["FC6_Timezone"]
    [("__init__", Own); ("__str__", Own); ("_getArgsAsStr", Own); ("_getParser", Own); ("parse", Own)];
  (* commands/timezone.py:176-190 *) mkClassdef "F23_Timezone" ["F18_Timezone"]
    [("__init__", Own); ("parse", Own)];
  (* commands/timezone.py:214-287 *) mkClassdef "RHEL7_Timezone" ["F18_Timezone"]
    [("__init__", Own); ("_getParser", Own); ("parse", Own)];
  (* commands/timezone.py:289-388 *) mkClassdef "F25_Timezone" ["F23_Timezone"]
    [("__init__", Own); ("__str__", Own); ("_getArgsAsStr", Own); ("_getParser", Own); ("parse", Own)];
  (* commands/timezone.py:390-422 *) mkClassdef "F32_Timezone" ["F25_Timezone"]
    [("__init__", Own); ("_getArgsAsStr", Own); ("parse", Own)];
  (* commands/timezone.py:425-445 *) mkClassdef "F33_Timezone" ["F32_Timezone"]
    [("__init__", Own); ("parse", Own)]].

(** commands/unsupported_hardware.py *)
Definition classes_unsupported_hardware : list classdef := [
  (* commands/unsupported_hardware.py:24-48 *) mkClassdef "RHEL6_UnsupportedHardware" ["KickstartCommand"]
    [("__init__", Own); ("__str__", Own); ("_getParser", Own); ("parse", Own)]].

(** commands/updates.py *)
Definition classes_updates : list classdef := [
  (* commands/updates.py:29-75 *) mkClassdef "F7_Updates" ["KickstartCommand"]
    [("__init__", Own); ("__str__", Own); ("_getParser", Own); ("parse", Own)];
  (* commands/updates.py:78-117 *) mkClassdef "F34_Updates" ["F7_Updates"]
    [("__str__", Own); ("_getParser", Own); ("parse", Own)]].

(** commands/upgrade.py *)
Definition classes_upgrade : list classdef := [
  (* commands/upgrade.py:28-69 *) mkClassdef "FC3_Upgrade" ["KickstartCommand"]
    [("__init__", Own); ("__str__", Own); ("_getParser", Own); ("parse", Own)];
  (* commands/upgrade.py:71-113 *) mkClassdef "F11_Upgrade" ["FC3_Upgrade"]
    [("__init__", Own); ("__str__", Own); ("_getParser", Own); ("parse", Own)];
  (* commands/upgrade.py:115-130 *) mkClassdef "F20_Upgrade" ["DeprecatedCommand"; "F11_Upgrade"]
    [("__init__", Calls "DeprecatedCommand"); ("_getParser", Own)];
  (* commands/upgrade.py:132-136 *) mkClassdef "F29_Upgrade" ["RemovedCommand"; "F20_Upgrade"]
    [("_getParser", Own)]].

(** commands/url.py *)
Definition classes_url : list classdef := [
  (* commands/url.py:27-66 *) mkClassdef "FC3_Url" ["KickstartCommand"]
    [("__init__", Own); ("__eq__", Own); ("__ne__", Own); ("__str__", Own); ("_getParser", Own); ("parse", Own)];
  (* commands/url.py:68-101 *) mkClassdef "F13_Url" ["FC3_Url"]
    [("__init__", Own); ("__eq__", Own); ("__str__", Own); ("_getParser", Own)];
  (* commands/url.py:103-134 *) mkClassdef "F14_Url" ["F13_Url"]
    [("__init__", Own); ("__eq__", Own); ("__str__", Own); ("_getParser", Own)];
  (* commands/url.py:136-137 *) mkClassdef "RHEL6_Url" ["F14_Url"]
    [];
  (* commands/url.py:139-198 *) mkClassdef "F18_Url" ["F14_Url"]
    [("__init__", Own); ("__eq__", Own); ("__str__", Own); ("_getParser", Own); ("parse", Own)];
  (* commands/url.py:200-245 *) mkClassdef "F27_Url" ["F18_Url"]
    [("__init__", Own); ("__eq__", Own); ("__str__", Own); ("_getParser", Own)];
  (* commands/url.py:247-298 *) mkClassdef "F30_Url" ["F27_Url"]
    [("__init__", Own); ("__str__", Own); ("_getParser", Own)];
  (* commands/url.py:300-301 *) mkClassdef "RHEL8_Url" ["F30_Url"]
    []].

(** commands/user.py *)
Definition classes_user : list classdef := [
  (* commands/user.py:29-84 *) mkClassdef "FC6_UserData" ["BaseData"]
    [("__init__", Own); ("__eq__", Own); ("__ne__", Own); ("__str__", Own); ("_getArgsAsStr", Own)];
  (* commands/user.py:86-100 *) mkClassdef "F8_UserData" ["FC6_UserData"]
    [("__init__", Own); ("_getArgsAsStr", Own)];
  (* commands/user.py:102-116 *) mkClassdef "F12_UserData" ["F8_UserData"]
    [("__init__", Own); ("_getArgsAsStr", Own)];
  (* commands/user.py:118-132 *) mkClassdef "F19_UserData" ["F12_UserData"]
    [("__init__", Own); ("_getArgsAsStr", Own)];
  (* commands/user.py:135-211 *) mkClassdef "FC6_User" ["KickstartCommand"]
    [("__init__", Own); ("__str__", Own); ("_getParser", Own); ("parse", Own); ("dataList", Own); ("dataClass", Own)];
  (* commands/user.py:213-228 *) mkClassdef "F8_User" ["FC6_User"]
    [("_getParser", Own)];
  (* commands/user.py:230-242 *) mkClassdef "F12_User" ["F8_User"]
    [("_getParser", Own)];
  (* commands/user.py:244-253 *) mkClassdef "F19_User" ["F12_User"]
    [("_getParser", Own)];
  (* commands/user.py:255-264 *) mkClassdef "F24_User" ["F19_User"]
    [("_getParser", Own)]].

(** commands/vnc.py *)
Definition classes_vnc : list classdef := [
  (* commands/vnc.py:24-73 *) mkClassdef "FC3_Vnc" ["KickstartCommand"]
    [("__init__", Own); ("__str__", Own); ("_getParser", Own); ("parse", Own)];
  (* commands/vnc.py:75-133 *) mkClassdef "FC6_Vnc" ["FC3_Vnc"]
    [("__init__", Own); ("__str__", Own); ("_getParser", Own); ("parse", Own)];
  (* commands/vnc.py:135-142 *) mkClassdef "F9_Vnc" ["FC6_Vnc"]
    [("_getParser", Own)]].

(** commands/volgroup.py *)
Definition classes_volgroup : list classdef := [
  (* commands/volgroup.py:28-70 *) mkClassdef "FC3_VolGroupData" ["BaseData"]
    [("__init__", Own); ("__eq__", Own); ("__ne__", Own); ("_getArgsAsStr", Own); ("__str__", Own)];
  (* commands/volgroup.py:72-85 *) mkClassdef "F16_VolGroupData" ["FC3_VolGroupData"]
    [("__init__", Own); ("_getArgsAsStr", Own)];
  (* commands/volgroup.py:87-90 *) mkClassdef "F21_VolGroupData" ["F16_VolGroupData"]
    [("__init__", Own)];
  (* commands/volgroup.py:92-93 *) mkClassdef "RHEL7_VolGroupData" ["F21_VolGroupData"]
    [];
  (* commands/volgroup.py:95-96 *) mkClassdef "RHEL8_VolGroupData" ["F21_VolGroupData"]
    [];
  (* commands/volgroup.py:98-189 *) mkClassdef "FC3_VolGroup" ["KickstartCommand"]
    [("__init__", Own); ("__str__", Own); ("_getParser", Own); ("parse", Own); ("dataList", Own); ("dataClass", Own)];
  (* commands/volgroup.py:191-225 *) mkClassdef "F16_VolGroup" ["FC3_VolGroup"]
    [("_getParser", Own); ("parse", Own)];
  (* commands/volgroup.py:227-232 *) mkClassdef "F21_VolGroup" ["F16_VolGroup"]
    [("_getParser", Own)];
  (* commands/volgroup.py:234-235 *) mkClassdef "RHEL7_VolGroup" ["F21_VolGroup"]
    [];
  (* commands/volgroup.py:237-238 *) mkClassdef "RHEL8_VolGroup" ["F21_VolGroup"]
    []].

(** commands/xconfig.py *)
Definition classes_xconfig : list classdef := [
  (* commands/xconfig.py:24-104 *) mkClassdef "FC3_XConfig" ["KickstartCommand"]
    [("__init__", Own); ("__str__", Own); ("_getParser", Own); ("parse", Own)];
  (* commands/xconfig.py:106-146 *) mkClassdef "FC6_XConfig" ["FC3_XConfig"]
    [("__init__", Own); ("__str__", Own); ("_getParser", Own)];
  (* commands/xconfig.py:148-159 *) mkClassdef "F9_XConfig" ["FC6_XConfig"]
    [("_getParser", Own)];
  (* commands/xconfig.py:161-175 *) mkClassdef "F10_XConfig" ["F9_XConfig"]
    [("__init__", Own); ("_getParser", Own)];
  (* commands/xconfig.py:177-187 *) mkClassdef "F14_XConfig" ["F10_XConfig"]
    [("_getParser", Own)]].

(** commands/zerombr.py *)
Definition classes_zerombr : list classdef := [
  (* commands/zerombr.py:29-65 *) mkClassdef "FC3_ZeroMbr" ["KickstartCommand"]
    [("__init__", Own); ("__str__", Own); ("_getParser", Own); ("parse", Own)];
  (* commands/zerombr.py:67-74 *) mkClassdef "F9_ZeroMbr" ["FC3_ZeroMbr"]
    [("parse", Own)]].

(** commands/zfcp.py *)
Definition classes_zfcp : list classdef := [
  (* commands/zfcp.py:28-66 *) mkClassdef "FC3_ZFCPData" ["BaseData"]
    [("__init__", Own); ("__eq__", Own); ("__ne__", Own); ("__str__", Own)];
  (* commands/zfcp.py:68-81 *) mkClassdef "F12_ZFCPData" ["FC3_ZFCPData"]
    [("__init__", Own); ("__eq__", Own)];
  (* commands/zfcp.py:83-84 *) mkClassdef "F14_ZFCPData" ["F12_ZFCPData"]
    [];
  (* commands/zfcp.py:86-129 *) mkClassdef "FC3_ZFCP" ["KickstartCommand"]
    [("__init__", Own); ("__str__", Own); ("_getParser", Own); ("parse", Own); ("dataList", Own); ("dataClass", Own)];
  (* commands/zfcp.py:131-143 *) mkClassdef "F12_ZFCP" ["FC3_ZFCP"]
    [("__init__", Own); ("_getParser", Own)];
  (* commands/zfcp.py:145-153 *) mkClassdef "F14_ZFCP" ["F12_ZFCP"]
    [("_getParser", Own)]].

(** commands/zipl.py *)
Definition classes_zipl : list classdef := [
  (* commands/zipl.py:25-89 *) mkClassdef "F32_Zipl" ["KickstartCommand"]
    [("__init__", Own); ("_getParser", Own); ("parse", Own); ("__str__", Own); ("_getArgsAsStr", Own)];
  (* commands/zipl.py:92-93 *) mkClassdef "RHEL8_Zipl" ["F32_Zipl"]
    []].

Definition classes : list classdef := Eval compute in concat [classes_base; classes_authconfig; classes_authselect; classes_autopart; classes_autostep; classes_bootloader; classes_btrfs; classes_cdrom; classes_clearpart; classes_device; classes_deviceprobe; classes_displaymode; classes_dmraid; classes_driverdisk; classes_eula; classes_fcoe; classes_firewall; classes_firstboot; classes_group; classes_harddrive; classes_hmc; classes_ignoredisk; classes_install; classes_interactive; classes_iscsi; classes_iscsiname; classes_key; classes_keyboard; classes_lang; classes_langsupport; classes_lilocheck; classes_liveimg; classes_logging; classes_logvol; classes_mediacheck; classes_method; classes_module; classes_monitor; classes_mount; classes_mouse; classes_multipath; classes_network; classes_nfs; classes_nvdimm; classes_ostreesetup; classes_partition; classes_raid; classes_realm; classes_reboot; classes_repo; classes_reqpart; classes_rescue; classes_rhsm; classes_rootpw; classes_selinux; classes_services; classes_skipx; classes_snapshot; classes_sshkey; classes_sshpw; classes_syspurpose; classes_timesource; classes_timezone; classes_unsupported_hardware; classes_updates; classes_upgrade; classes_url; classes_user; classes_vnc; classes_volgroup; classes_xconfig; classes_zerombr; classes_zfcp; classes_zipl].
