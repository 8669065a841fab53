(** * The option tables of the commands

    Written by tools/gen_commands.py from the _getParser methods of
    pykickstart/commands/*.py: the add_argument and remove_argument calls, in order.
    [self] are the attributes of the command after __init__. *)

From Verif Require Export ArgDecl.
From Verif Require Import Value.
Local Open Scope string_scope.
Local Open Scope list_scope.

Definition pairs_of (a : string) (self : attrs) : list (string * string) :=
  match get a self with VPairs l => l | _ => [] end.
Definition codes_of (a : string) (self : attrs) : list (string * Z) :=
  match get a self with VCodes l => l | _ => [] end.
Definition strings_of (a : string) (self : attrs) : list string :=
  match get a self with VStrs l => l | _ => [] end.

(** commands/authconfig.py:49-62 *)
Definition t_FC3_Authconfig (self : attrs) : list tableop :=
  [OpAdd (mkDecl [] "options" KStore NOne VNone VNone TStr None true false)].
(** commands/authconfig.py:75-86 *)
Definition t_F28_Authconfig (self : attrs) : list tableop :=
  t_FC3_Authconfig self.
(** commands/authselect.py:45-56 *)
Definition t_F28_Authselect (self : attrs) : list tableop :=
  [OpAdd (mkDecl [] "options" KStore NOne VNone VNone TStr None true false)].
(** commands/autopart.py:52-61 *)
Definition t_FC3_AutoPart (self : attrs) : list tableop :=
  [].
(** commands/autopart.py:91-102 *)
Definition t_F9_AutoPart (self : attrs) : list tableop :=
  t_FC3_AutoPart self ++
  [OpAdd (mkDecl ["--encrypted"] "encrypted" KStoreConst (NInt 0) (VBool true) (VBool false) TStr None false false);
   OpAdd (mkDecl ["--passphrase"] "passphrase" KStore NOne VNone VNone TStr None false false)].
(** commands/autopart.py:138-155 *)
Definition t_F12_AutoPart (self : attrs) : list tableop :=
  t_F9_AutoPart self ++
  [OpAdd (mkDecl ["--escrowcert"] "escrowcert" KStore NOne VNone VNone TStr None false false);
   OpAdd (mkDecl ["--backuppassphrase"] "backuppassphrase" KStoreConst (NInt 0) (VBool true) (VBool false) TStr None false false)].
(** commands/autopart.py:178-184 *)
Definition t_RHEL6_AutoPart (self : attrs) : list tableop :=
  t_F12_AutoPart self ++
  [OpAdd (mkDecl ["--cipher"] "cipher" KStore NOne VNone VNone TStr None false false)].
(** commands/autopart.py:239-244 *)
Definition t_F16_AutoPart (self : attrs) : list tableop :=
  t_F12_AutoPart self ++
  [OpAdd (mkDecl ["--nolvm"] "lvm" KStoreConst (NInt 0) (VBool false) (VBool true) TStr None false false)].
(** commands/autopart.py:287-296 *)
Definition t_F17_AutoPart (self : attrs) : list tableop :=
  t_F16_AutoPart self ++
  [OpAdd (mkDecl ["--nolvm"] "type" KStoreConst (NInt 0) (VInt 0) VNone TStr None false false);
   OpAdd (mkDecl ["--type"] "type" KStore NOne VNone VNone (TCode (codes_of "typeMap" self)) None false false)].
(** commands/autopart.py:327-333 *)
Definition t_F18_AutoPart (self : attrs) : list tableop :=
  t_F17_AutoPart self ++
  [OpAdd (mkDecl ["--cipher"] "cipher" KStore NOne VNone VNone TStr None false false)].
(** commands/autopart.py:372-382 *)
Definition t_F20_AutoPart (self : attrs) : list tableop :=
  t_F18_AutoPart self.
(** commands/autopart.py:405-412 *)
Definition t_F21_AutoPart (self : attrs) : list tableop :=
  t_F20_AutoPart self ++
  [OpAdd (mkDecl ["--fstype"] "fstype" KStore NOne VNone VNone TStr None false false)].
(** commands/autopart.py:462-467 *)
Definition t_RHEL7_AutoPart (self : attrs) : list tableop :=
  t_F21_AutoPart self ++
  [OpAdd (mkDecl ["--nohome"] "nohome" KStoreConst (NInt 0) (VBool true) (VBool false) TStr None false false)].
(** commands/autopart.py:519-530 *)
Definition t_F26_AutoPart (self : attrs) : list tableop :=
  t_F21_AutoPart self ++
  [OpAdd (mkDecl ["--nohome"] "nohome" KStoreConst (NInt 0) (VBool true) (VBool false) TStr None false false);
   OpAdd (mkDecl ["--noboot"] "noboot" KStoreConst (NInt 0) (VBool true) (VBool false) TStr None false false);
   OpAdd (mkDecl ["--noswap"] "noswap" KStoreConst (NInt 0) (VBool true) (VBool false) TStr None false false)].
(** commands/autopart.py:576-609 *)
Definition t_F29_AutoPart (self : attrs) : list tableop :=
  t_F26_AutoPart self ++
  [OpAdd (mkDecl ["--luks-version"] "luks_version" KStore NOne VNone (VStr "") TStr None false false);
   OpAdd (mkDecl ["--pbkdf"] "pbkdf" KStore NOne VNone (VStr "") TStr None false false);
   OpAdd (mkDecl ["--pbkdf-memory"] "pbkdf_memory" KStore NOne VNone (VInt 0) TInt None false false);
   OpAdd (mkDecl ["--pbkdf-time"] "pbkdf_time" KStore NOne VNone (VInt 0) TInt None false false);
   OpAdd (mkDecl ["--pbkdf-iterations"] "pbkdf_iterations" KStore NOne VNone (VInt 0) TInt None false false)].
(** commands/autopart.py:635-651 *)
Definition t_RHEL8_AutoPart (self : attrs) : list tableop :=
  t_F29_AutoPart self.
(** commands/autostep.py:46-60 *)
Definition t_FC3_AutoStep (self : attrs) : list tableop :=
  [OpAdd (mkDecl ["--autoscreenshot"] "autoscreenshot" KStoreConst (NInt 0) (VBool true) (VBool false) TStr None false false)].
(** commands/autostep.py:72-75 *)
Definition t_F34_AutoStep (self : attrs) : list tableop :=
  t_FC3_AutoStep self.
(** commands/bootloader.py:81-143 *)
Definition t_FC3_Bootloader (self : attrs) : list tableop :=
  [OpAdd (mkDecl ["--append"] "appendLine" KStore NOne VNone VNone TStr None false false);
   OpAdd (mkDecl ["--linear"] "linear" KStoreConst (NInt 0) (VBool true) (VBool true) TStr None false false);
   OpAdd (mkDecl ["--nolinear"] "linear" KStoreConst (NInt 0) (VBool false) (VBool true) TStr None false false);
   OpAdd (mkDecl ["--location"] "location" KStore NOne VNone (VStr "mbr") TStr (Some ["mbr"; "partition"; "none"; "boot"]) false false);
   OpAdd (mkDecl ["--lba32"] "forceLBA" KStoreConst (NInt 0) (VBool true) (VBool false) TStr None false false);
   OpAdd (mkDecl ["--password"] "password" KStore NOne VNone (VStr "") TStr None false false);
   OpAdd (mkDecl ["--md5pass"] "md5pass" KStore NOne VNone (VStr "") TStr None false false);
   OpAdd (mkDecl ["--upgrade"] "upgrade" KStoreConst (NInt 0) (VBool true) (VBool false) TStr None false false);
   OpAdd (mkDecl ["--useLilo"] "useLilo" KStoreConst (NInt 0) (VBool true) (VBool false) TStr None false false);
   OpAdd (mkDecl ["--driveorder"] "driveorder" KStore NOne VNone VNone TComma None false false)].
(** commands/bootloader.py:160-163 *)
Definition t_FC3_Lilo (self : attrs) : list tableop :=
  t_FC3_Bootloader self.
(** commands/bootloader.py:166-169 *)
Definition t_FC4_Lilo (self : attrs) : list tableop :=
  t_FC3_Lilo self.
(** commands/bootloader.py:197-202 *)
Definition t_FC4_Bootloader (self : attrs) : list tableop :=
  t_FC3_Bootloader self ++
  [OpRemove "--linear";
   OpRemove "--nolinear";
   OpRemove "--useLilo"].
(** commands/bootloader.py:229-237 *)
Definition t_F8_Bootloader (self : attrs) : list tableop :=
  t_FC4_Bootloader self ++
  [OpAdd (mkDecl ["--timeout"] "timeout" KStore NOne VNone VNone TInt None false false);
   OpAdd (mkDecl ["--default"] "default" KStore NOne VNone VNone TStr None false false)].
(** commands/bootloader.py:243-248 *)
Definition t_F12_Bootloader (self : attrs) : list tableop :=
  t_F8_Bootloader self ++
  [OpAdd (mkDecl ["--lba32"] "forceLBA" KStoreConst (NInt 0) (VBool true) (VBool false) TStr None false true)].
(** commands/bootloader.py:254-257 *)
Definition t_F14_Bootloader (self : attrs) : list tableop :=
  t_F12_Bootloader self ++
  [OpRemove "--lba32"].
(** commands/bootloader.py:276-286 *)
Definition t_F15_Bootloader (self : attrs) : list tableop :=
  t_F14_Bootloader self ++
  [OpAdd (mkDecl ["--iscrypted"] "isCrypted" KStoreConst (NInt 0) (VBool true) (VBool false) TStr None false false);
   OpAdd (mkDecl ["--md5pass"] "_md5pass" KStore NOne VNone VNone TStr None false false)].
(** commands/bootloader.py:318-324 *)
Definition t_F17_Bootloader (self : attrs) : list tableop :=
  t_F15_Bootloader self ++
  [OpAdd (mkDecl ["--boot-drive"] "bootDrive" KStore NOne VNone (VStr "") TStr None false false)].
(** commands/bootloader.py:351-358 *)
Definition t_F18_Bootloader (self : attrs) : list tableop :=
  t_F17_Bootloader self ++
  [OpAdd (mkDecl ["--leavebootorder"] "leavebootorder" KStoreConst (NInt 0) (VBool true) (VBool false) TStr None false false)].
(** commands/bootloader.py:377-383 *)
Definition t_RHEL5_Bootloader (self : attrs) : list tableop :=
  t_FC4_Bootloader self ++
  [OpAdd (mkDecl ["--hvargs"] "hvArgs" KStore NOne VNone VNone TStr None false false)].
(** commands/bootloader.py:402-412 *)
Definition t_RHEL6_Bootloader (self : attrs) : list tableop :=
  t_F12_Bootloader self ++
  [OpAdd (mkDecl ["--iscrypted"] "isCrypted" KStoreConst (NInt 0) (VBool true) (VBool false) TStr None false false);
   OpAdd (mkDecl ["--md5pass"] "_md5pass" KStore NOne VNone VNone TStr None false false)].
(** commands/bootloader.py:444-450 *)
Definition t_F19_Bootloader (self : attrs) : list tableop :=
  t_F18_Bootloader self ++
  [OpAdd (mkDecl ["--extlinux"] "extlinux" KStoreConst (NInt 0) (VBool true) (VBool false) TStr None false false)].
(** commands/bootloader.py:471-490 *)
Definition t_F21_Bootloader (self : attrs) : list tableop :=
  t_F19_Bootloader self ++
  [OpAdd (mkDecl ["--disabled"] "disabled" KStoreConst (NInt 0) (VBool true) (VBool false) TStr None false false);
   OpAdd (mkDecl ["--nombr"] "nombr" KStoreConst (NInt 0) (VBool true) (VBool false) TStr None false false)].
(** commands/bootloader.py:499-503 *)
Definition t_F29_Bootloader (self : attrs) : list tableop :=
  t_F21_Bootloader self ++
  [OpAdd (mkDecl ["--upgrade"] "upgrade" KStoreConst (NInt 0) (VBool true) (VBool false) TStr None false true)].
(** commands/bootloader.py:512-515 *)
Definition t_F34_Bootloader (self : attrs) : list tableop :=
  t_F29_Bootloader self ++
  [OpRemove "--upgrade"].
(** commands/btrfs.py:124-200 *)
Definition t_F17_BTRFS (self : attrs) : list tableop :=
  [OpAdd (mkDecl ["--noformat"] "format" KStoreConst (NInt 0) (VBool false) (VBool true) TStr None false false);
   OpAdd (mkDecl ["--useexisting"] "preexist" KStoreConst (NInt 0) (VBool true) (VBool false) TStr None false false);
   OpAdd (mkDecl ["--label"] "label" KStore NOne VNone (VStr "") TStr None false false);
   OpAdd (mkDecl ["--data"] "dataLevel" KStore NOne VNone VNone (TName false (pairs_of "levelMap" self)) None false false);
   OpAdd (mkDecl ["--metadata"] "metaDataLevel" KStore NOne VNone VNone (TName false (pairs_of "levelMap" self)) None false false);
   OpAdd (mkDecl ["--subvol"] "subvol" KStoreConst (NInt 0) (VBool true) (VBool false) TStr None false false);
   OpAdd (mkDecl ["--parent"] "parent" KStore NOne VNone (VStr "") TStr None false false);
   OpAdd (mkDecl ["--name"] "name" KStore NOne VNone (VStr "") TStr None false false)].
(** commands/btrfs.py:248-258 *)
Definition t_F23_BTRFS (self : attrs) : list tableop :=
  t_F17_BTRFS self ++
  [OpAdd (mkDecl ["--mkfsoptions"] "mkfsopts" KStore NOne VNone VNone TStr None false false)].
(** commands/btrfs.py:275-278 *)
Definition t_RHEL8_BTRFS (self : attrs) : list tableop :=
  t_F23_BTRFS self.
(** commands/cdrom.py:45-48 *)
Definition t_FC3_Cdrom (self : attrs) : list tableop :=
  [].
(** commands/clearpart.py:65-96 *)
Definition t_FC3_ClearPart (self : attrs) : list tableop :=
  [OpAdd (mkDecl ["--all"] "type" KStoreConst (NInt 0) (VInt 1) VNone TStr None false false);
   OpAdd (mkDecl ["--drives"] "drives" KStore NOne VNone VNone TComma None false false);
   OpAdd (mkDecl ["--initlabel"] "initAll" KStoreConst (NInt 0) (VBool true) (VBool false) TStr None false false);
   OpAdd (mkDecl ["--linux"] "type" KStoreConst (NInt 0) (VInt 0) VNone TStr None false false);
   OpAdd (mkDecl ["--none"] "type" KStoreConst (NInt 0) (VInt 2) VNone TStr None false false)].
(** commands/clearpart.py:116-125 *)
Definition t_F17_ClearPart (self : attrs) : list tableop :=
  t_FC3_ClearPart self ++
  [OpAdd (mkDecl ["--list"] "devices" KStore NOne VNone VNone TComma None false false)].
(** commands/clearpart.py:146-152 *)
Definition t_F21_ClearPart (self : attrs) : list tableop :=
  t_F17_ClearPart self ++
  [OpAdd (mkDecl ["--disklabel"] "disklabel" KStore NOne VNone (VStr "") TStr None false false)].
(** commands/clearpart.py:166-171 *)
Definition t_F28_ClearPart (self : attrs) : list tableop :=
  t_F21_ClearPart self ++
  [OpAdd (mkDecl ["--cdl"] "cdl" KStoreConst (NInt 0) (VBool true) (VBool false) TStr None false false)].
(** commands/device.py:89-109 *)
Definition t_FC3_Device (self : attrs) : list tableop :=
  [OpAdd (mkDecl ["--opts"] "moduleOpts" KStore NOne VNone (VStr "") TStr None false false)].
(** commands/device.py:171-174 *)
Definition t_F24_Device (self : attrs) : list tableop :=
  t_FC3_Device self.
(** commands/device.py:177-180 *)
Definition t_F34_Device (self : attrs) : list tableop :=
  t_F24_Device self.
(** commands/deviceprobe.py:45-46 *)
Definition t_FC3_DeviceProbe (self : attrs) : list tableop :=
  [].
(** commands/deviceprobe.py:54-57 *)
Definition t_F29_DeviceProbe (self : attrs) : list tableop :=
  t_FC3_DeviceProbe self.
(** commands/deviceprobe.py:60-63 *)
Definition t_F34_DeviceProbe (self : attrs) : list tableop :=
  t_F29_DeviceProbe self.
(** commands/displaymode.py:68-75 *)
Definition t_FC3_DisplayMode (self : attrs) : list tableop :=
  [].
(** commands/displaymode.py:94-102 *)
Definition t_F26_DisplayMode (self : attrs) : list tableop :=
  t_FC3_DisplayMode self ++
  [OpAdd (mkDecl ["--non-interactive"] "nonInteractive" KStoreConst (NInt 0) (VBool true) (VBool false) TStr None false false)].
(** commands/dmraid.py:75-80 *)
Definition t_FC6_DmRaid (self : attrs) : list tableop :=
  [OpAdd (mkDecl ["--name"] "name" KStore NOne VNone VNone TStr None true false);
   OpAdd (mkDecl ["--dev"] "devices" KAppend NOne VNone VNone TStr None true false)].
(** commands/dmraid.py:106-109 *)
Definition t_F24_DmRaid (self : attrs) : list tableop :=
  t_FC6_DmRaid self.
(** commands/dmraid.py:112-115 *)
Definition t_F34_DmRaid (self : attrs) : list tableop :=
  t_F24_DmRaid self.
(** commands/driverdisk.py:108-126 *)
Definition t_FC3_DriverDisk (self : attrs) : list tableop :=
  [OpAdd (mkDecl [] "partition" KStore NStar VNone VNone TStr None true false);
   OpAdd (mkDecl ["--source"] "source" KStore NOne VNone VNone TStr None false false);
   OpAdd (mkDecl ["--type"] "type" KStore NOne VNone VNone TStr None false false)].
(** commands/driverdisk.py:162-167 *)
Definition t_FC4_DriverDisk (self : attrs) : list tableop :=
  t_FC3_DriverDisk self ++
  [OpAdd (mkDecl ["--biospart"] "biospart" KStore NOne VNone VNone TStr None false false)].
(** commands/driverdisk.py:200-203 *)
Definition t_F12_DriverDisk (self : attrs) : list tableop :=
  t_FC4_DriverDisk self ++
  [OpAdd (mkDecl ["--type"] "type" KStore NOne VNone VNone TStr None false true)].
(** commands/driverdisk.py:209-212 *)
Definition t_F14_DriverDisk (self : attrs) : list tableop :=
  t_F12_DriverDisk self ++
  [OpRemove "--type"].
(** commands/eula.py:50-57 *)
Definition t_F20_Eula (self : attrs) : list tableop :=
  [OpAdd (mkDecl ["--agreed"; "--agree"; "--accepted"; "--accept"] "agreed" KStoreConst (NInt 0) (VBool true) (VBool false) TStr None false false)].
(** commands/fcoe.py:125-132 *)
Definition t_F12_Fcoe (self : attrs) : list tableop :=
  [OpAdd (mkDecl ["--nic"] "nic" KStore NOne VNone VNone TStr None true false)].
(** commands/fcoe.py:158-167 *)
Definition t_F13_Fcoe (self : attrs) : list tableop :=
  t_F12_Fcoe self ++
  [OpAdd (mkDecl ["--dcb"] "dcb" KStoreConst (NInt 0) (VBool true) (VBool false) TStr None false false)].
(** commands/fcoe.py:173-179 *)
Definition t_RHEL7_Fcoe (self : attrs) : list tableop :=
  t_F13_Fcoe self ++
  [OpAdd (mkDecl ["--autovlan"] "autovlan" KStoreConst (NInt 0) (VBool true) (VBool false) TStr None false false)].
(** commands/fcoe.py:185-191 *)
Definition t_F28_Fcoe (self : attrs) : list tableop :=
  t_F13_Fcoe self ++
  [OpAdd (mkDecl ["--autovlan"] "autovlan" KStoreConst (NInt 0) (VBool true) (VBool false) TStr None false false)].
(** commands/firewall.py:83-141 *)
Definition t_FC3_Firewall (self : attrs) : list tableop :=
  [OpAdd (mkDecl ["--disable"; "--disabled"] "enabled" KStoreConst (NInt 0) (VBool false) (VBool true) TStr None false false);
   OpAdd (mkDecl ["--enable"; "--enabled"] "enabled" KStoreConst (NInt 0) (VBool true) (VBool true) TStr None false false);
   OpAdd (mkDecl ["--ftp"] "ports" KAppendConst (NInt 0) (VStr "21:tcp") VNone TStr None false false);
   OpAdd (mkDecl ["--http"] "ports" KExtendConst (NInt 0) (VStrs ["80:tcp"; "443:tcp"]) VNone TStr None false false);
   OpAdd (mkDecl ["--smtp"] "ports" KAppendConst (NInt 0) (VStr "25:tcp") VNone TStr None false false);
   OpAdd (mkDecl ["--ssh"] "ports" KAppendConst (NInt 0) (VStr "22:tcp") VNone TStr None false false);
   OpAdd (mkDecl ["--telnet"] "ports" KAppendConst (NInt 0) (VStr "23:tcp") VNone TStr None false false);
   OpAdd (mkDecl ["--high"] "high" KStore NOne VNone VNone TStr None false true);
   OpAdd (mkDecl ["--medium"] "medium" KStore NOne VNone VNone TStr None false true);
   OpAdd (mkDecl ["--port"] "ports" KExtend NOne VNone VNone TPorts None false false);
   OpAdd (mkDecl ["--trust"] "trusts" KAppend NOne VNone VNone TStr None false false)].
(** commands/firewall.py:152-156 *)
Definition t_F9_Firewall (self : attrs) : list tableop :=
  t_FC3_Firewall self ++
  [OpRemove "--high";
   OpRemove "--medium"].
(** commands/firewall.py:182-210 *)
Definition t_F10_Firewall (self : attrs) : list tableop :=
  t_F9_Firewall self ++
  [OpAdd (mkDecl ["--service"] "services" KExtend NOne VNone VNone TComma None false false);
   OpAdd (mkDecl ["--ftp"] "services" KAppendConst (NInt 0) (VStr "ftp") VNone TStr None false false);
   OpAdd (mkDecl ["--http"] "services" KAppendConst (NInt 0) (VStr "http") VNone TStr None false false);
   OpAdd (mkDecl ["--smtp"] "services" KAppendConst (NInt 0) (VStr "smtp") VNone TStr None false false);
   OpAdd (mkDecl ["--ssh"] "services" KAppendConst (NInt 0) (VStr "ssh") VNone TStr None false false);
   OpAdd (mkDecl ["--telnet"] "telnet" KStore NOne VNone VNone TStr None false true)].
(** commands/firewall.py:216-219 *)
Definition t_F14_Firewall (self : attrs) : list tableop :=
  t_F10_Firewall self ++
  [OpRemove "--telnet"].
(** commands/firewall.py:226-231 *)
Definition t_F20_Firewall (self : attrs) : list tableop :=
  t_F14_Firewall self ++
  [OpAdd (mkDecl ["--remove-service"] "remove_services" KExtend NOne VNone VNone TComma None false false)].
(** commands/firewall.py:254-263 *)
Definition t_F28_Firewall (self : attrs) : list tableop :=
  t_F20_Firewall self ++
  [OpAdd (mkDecl ["--use-system-defaults"] "use_system_defaults" KStoreConst (NInt 0) (VBool true) (VBool false) TStr None false false)].
(** commands/firstboot.py:50-74 *)
Definition t_FC3_Firstboot (self : attrs) : list tableop :=
  [OpAdd (mkDecl ["--disable"; "--disabled"] "firstboot" KStoreConst (NInt 0) (VInt 1) VNone TStr None false false);
   OpAdd (mkDecl ["--enable"; "--enabled"] "firstboot" KStoreConst (NInt 0) (VInt 0) VNone TStr None false false);
   OpAdd (mkDecl ["--reconfig"] "firstboot" KStoreConst (NInt 0) (VInt 2) VNone TStr None false false)].
(** commands/group.py:74-85 *)
Definition t_F12_Group (self : attrs) : list tableop :=
  [OpAdd (mkDecl ["--name"] "name" KStore NOne VNone VNone TStr None true false);
   OpAdd (mkDecl ["--gid"] "gid" KStore NOne VNone VNone TInt None false false)].
(** commands/harddrive.py:64-82 *)
Definition t_FC3_HardDrive (self : attrs) : list tableop :=
  [OpAdd (mkDecl ["--biospart"] "biospart" KStore NOne VNone VNone TStr None false false);
   OpAdd (mkDecl ["--partition"] "partition" KStore NOne VNone VNone TStr None false false);
   OpAdd (mkDecl ["--dir"] "dir" KStore NOne VNone VNone TStr None true false)].
(** commands/harddrive.py:118-123 *)
Definition t_F33_HardDrive (self : attrs) : list tableop :=
  t_FC3_HardDrive self ++
  [OpRemove "--biospart";
   OpAdd (mkDecl ["--partition"] "partition" KStore NOne VNone VNone TStr None true false)].
(** commands/hmc.py:39-42 *)
Definition t_RHEL7_Hmc (self : attrs) : list tableop :=
  [].
(** commands/ignoredisk.py:44-53 *)
Definition t_FC3_IgnoreDisk (self : attrs) : list tableop :=
  [OpAdd (mkDecl ["--drives"] "ignoredisk" KStore NOne VNone VNone TComma None true false)].
(** commands/ignoredisk.py:93-102 *)
Definition t_F8_IgnoreDisk (self : attrs) : list tableop :=
  t_FC3_IgnoreDisk self ++
  [OpAdd (mkDecl ["--drives"] "ignoredisk" KStore NOne VNone VNone TComma None false false);
   OpAdd (mkDecl ["--only-use"] "onlyuse" KStore NOne VNone VNone TComma None false false)].
(** commands/ignoredisk.py:138-144 *)
Definition t_RHEL6_IgnoreDisk (self : attrs) : list tableop :=
  t_F8_IgnoreDisk self ++
  [OpAdd (mkDecl ["--interactive"] "interactive" KStoreConst (NInt 0) (VBool true) (VBool false) TStr None false false)].
(** commands/ignoredisk.py:156-162 *)
Definition t_F29_IgnoreDisk (self : attrs) : list tableop :=
  t_RHEL6_IgnoreDisk self ++
  [OpAdd (mkDecl ["--interactive"] "interactive" KStoreConst (NInt 0) (VBool true) (VBool false) TStr None false true)].
(** commands/ignoredisk.py:168-171 *)
Definition t_F34_IgnoreDisk (self : attrs) : list tableop :=
  t_F29_IgnoreDisk self ++
  [OpRemove "--interactive"].
(** commands/upgrade.py:50-59 *)
Definition t_FC3_Upgrade (self : attrs) : list tableop :=
  [].
(** commands/upgrade.py:90-98 *)
Definition t_F11_Upgrade (self : attrs) : list tableop :=
  t_FC3_Upgrade self ++
  [OpAdd (mkDecl ["--root-device"] "root_device" KStore NOne VNone VNone TStr None false false)].
(** commands/install.py:34-49 *)
Definition t_F20_Install (self : attrs) : list tableop :=
  t_F11_Upgrade self.
(** commands/install.py:63-66 *)
Definition t_F29_Install (self : attrs) : list tableop :=
  t_F20_Install self.
(** commands/install.py:70-73 *)
Definition t_F34_Install (self : attrs) : list tableop :=
  t_F29_Install self.
(** commands/interactive.py:41-44 *)
Definition t_FC3_Interactive (self : attrs) : list tableop :=
  [].
(** commands/interactive.py:55-58 *)
Definition t_F14_Interactive (self : attrs) : list tableop :=
  t_FC3_Interactive self.
(** commands/interactive.py:61-64 *)
Definition t_F15_Interactive (self : attrs) : list tableop :=
  t_F14_Interactive self.
(** commands/iscsi.py:113-148 *)
Definition t_FC6_Iscsi (self : attrs) : list tableop :=
  [OpAdd (mkDecl ["--target"] "target" KStore NOne VNone VNone TStr None false false);
   OpAdd (mkDecl ["--ipaddr"] "ipaddr" KStore NOne VNone VNone TStr None true false);
   OpAdd (mkDecl ["--port"] "port" KStore NOne VNone VNone TInt None false false);
   OpAdd (mkDecl ["--user"] "user" KStore NOne VNone VNone TStr None false false);
   OpAdd (mkDecl ["--password"] "password" KStore NOne VNone VNone TStr None false false)].
(** commands/iscsi.py:168-177 *)
Definition t_F10_Iscsi (self : attrs) : list tableop :=
  t_FC6_Iscsi self ++
  [OpAdd (mkDecl ["--reverse-user"] "user_in" KStore NOne VNone VNone TStr None false false);
   OpAdd (mkDecl ["--reverse-password"] "password_in" KStore NOne VNone VNone TStr None false false)].
(** commands/iscsi.py:183-190 *)
Definition t_RHEL6_Iscsi (self : attrs) : list tableop :=
  t_F10_Iscsi self ++
  [OpAdd (mkDecl ["--iface"] "iface" KStore NOne VNone VNone TStr None false false)].
(** commands/iscsi.py:193-204 *)
Definition t_F17_Iscsi (self : attrs) : list tableop :=
  t_RHEL6_Iscsi self.
(** commands/iscsiname.py:45-53 *)
Definition t_FC6_IscsiName (self : attrs) : list tableop :=
  [OpAdd (mkDecl [] "iqn" KStore (NInt 1) VNone VNone TStr None true false)].
(** commands/key.py:48-52 *)
Definition t_RHEL5_Key (self : attrs) : list tableop :=
  [OpAdd (mkDecl ["--skip"] "skip" KStoreConst (NInt 0) (VBool true) (VBool false) TStr None false false)].
(** commands/keyboard.py:46-50 *)
Definition t_FC3_Keyboard (self : attrs) : list tableop :=
  [OpAdd (mkDecl [] "kbd" KStore NStar VNone VNone TStr None true false)].
(** commands/keyboard.py:109-156 *)
Definition t_F18_Keyboard (self : attrs) : list tableop :=
  t_FC3_Keyboard self ++
  [OpAdd (mkDecl ["--vckeymap"] "vc_keymap" KStore NOne VNone (VStr "") TStr None false false);
   OpAdd (mkDecl ["--xlayouts"] "x_layouts" KStore NOne VNone VNone TComma None false false);
   OpAdd (mkDecl ["--switch"] "switch_options" KStore NOne VNone VNone TComma None false false)].
(** commands/lang.py:44-63 *)
Definition t_FC3_Lang (self : attrs) : list tableop :=
  [OpAdd (mkDecl [] "lang" KStore (NInt 1) VNone VNone TStr None true false)].
(** commands/lang.py:94-102 *)
Definition t_F19_Lang (self : attrs) : list tableop :=
  t_FC3_Lang self ++
  [OpAdd (mkDecl ["--addsupport"] "addsupport" KStore NOne VNone VNone TComma None false false)].
(** commands/langsupport.py:48-53 *)
Definition t_FC3_LangSupport (self : attrs) : list tableop :=
  [OpAdd (mkDecl ["--default"] "deflang" KStore NOne VNone (VStr "en_US.UTF-8") TStr None false false)].
(** commands/langsupport.py:69-72 *)
Definition t_FC5_LangSupport (self : attrs) : list tableop :=
  t_FC3_LangSupport self.
(** commands/langsupport.py:75-78 *)
Definition t_F7_LangSupport (self : attrs) : list tableop :=
  t_FC5_LangSupport self.
(** commands/lilocheck.py:41-43 *)
Definition t_FC3_LiloCheck (self : attrs) : list tableop :=
  [].
(** commands/lilocheck.py:51-54 *)
Definition t_FC4_LiloCheck (self : attrs) : list tableop :=
  t_FC3_LiloCheck self.
(** commands/liveimg.py:65-96 *)
Definition t_F19_Liveimg (self : attrs) : list tableop :=
  [OpAdd (mkDecl ["--url"] "url" KStore NOne VNone VNone TStr None true false);
   OpAdd (mkDecl ["--proxy"] "proxy" KStore NOne VNone VNone TStr None false false);
   OpAdd (mkDecl ["--noverifyssl"] "noverifyssl" KStoreConst (NInt 0) (VBool true) (VBool false) TStr None false false);
   OpAdd (mkDecl ["--checksum"] "checksum" KStore NOne VNone VNone TStr None false false)].
(** commands/logging.py:57-73 *)
Definition t_FC6_Logging (self : attrs) : list tableop :=
  [OpAdd (mkDecl ["--host"] "host" KStore NOne VNone VNone TStr None false false);
   OpAdd (mkDecl ["--port"] "port" KStore NOne VNone VNone TStr None false false);
   OpAdd (mkDecl ["--level"] "level" KStore NOne VNone (VStr "info") TStr (Some ["debug"; "info"; "warning"; "error"; "critical"]) false false)].
(** commands/logging.py:101-104 *)
Definition t_F34_Logging (self : attrs) : list tableop :=
  t_FC6_Logging self ++
  [OpAdd (mkDecl ["--level"] "level" KStore NOne VNone VNone TStr None false true)].
(** commands/logvol.py:407-463 *)
Definition t_FC3_LogVol (self : attrs) : list tableop :=
  [OpAdd (mkDecl [] "mntpoint" KStore (NInt 1) VNone VNone TMount None true false);
   OpAdd (mkDecl ["--fstype"] "fstype" KStore NOne VNone VNone TStr None false false);
   OpAdd (mkDecl ["--grow"] "grow" KStoreConst (NInt 0) (VBool true) (VBool false) TStr None false false);
   OpAdd (mkDecl ["--maxsize"] "maxSizeMB" KStore NOne VNone VNone TInt None false false);
   OpAdd (mkDecl ["--name"] "name" KStore NOne VNone VNone TStr None true false);
   OpAdd (mkDecl ["--noformat"] "format" KStoreConst (NInt 0) (VBool false) (VBool true) TStr None false false);
   OpAdd (mkDecl ["--percent"] "percent" KStore NOne VNone VNone TInt None false false);
   OpAdd (mkDecl ["--recommended"] "recommended" KStoreConst (NInt 0) (VBool true) (VBool false) TStr None false false);
   OpAdd (mkDecl ["--size"] "size" KStore NOne VNone VNone TInt None false false);
   OpAdd (mkDecl ["--useexisting"] "preexist" KStoreConst (NInt 0) (VBool true) (VBool false) TStr None false false);
   OpAdd (mkDecl ["--vgname"] "vgname" KStore NOne VNone VNone TStr None true false)].
(** commands/logvol.py:497-506 *)
Definition t_FC4_LogVol (self : attrs) : list tableop :=
  t_FC3_LogVol self ++
  [OpAdd (mkDecl ["--bytes-per-inode"] "bytesPerInode" KStore NOne VNone VNone TInt None false false);
   OpAdd (mkDecl ["--fsoptions"] "fsopts" KStore NOne VNone VNone TStr None false false)].
(** commands/logvol.py:512-525 *)
Definition t_RHEL5_LogVol (self : attrs) : list tableop :=
  t_FC4_LogVol self ++
  [OpAdd (mkDecl ["--encrypted"] "encrypted" KStoreConst (NInt 0) (VBool true) (VBool false) TStr None false false);
   OpAdd (mkDecl ["--passphrase"] "passphrase" KStore NOne VNone VNone TStr None false false)].
(** commands/logvol.py:531-554 *)
Definition t_F9_LogVol (self : attrs) : list tableop :=
  t_FC4_LogVol self ++
  [OpAdd (mkDecl ["--bytes-per-inode"] "bytes_per_inode" KStore NOne VNone VNone TStr None false true);
   OpAdd (mkDecl ["--fsprofile"] "fsprofile" KStore NOne VNone VNone TStr None false false);
   OpAdd (mkDecl ["--encrypted"] "encrypted" KStoreConst (NInt 0) (VBool true) (VBool false) TStr None false false);
   OpAdd (mkDecl ["--passphrase"] "passphrase" KStore NOne VNone VNone TStr None false false)].
(** commands/logvol.py:560-577 *)
Definition t_F12_LogVol (self : attrs) : list tableop :=
  t_F9_LogVol self ++
  [OpAdd (mkDecl ["--escrowcert"] "escrowcert" KStore NOne VNone VNone TStr None false false);
   OpAdd (mkDecl ["--backuppassphrase"] "backuppassphrase" KStoreConst (NInt 0) (VBool true) (VBool false) TStr None false false)].
(** commands/logvol.py:583-617 *)
Definition t_RHEL6_LogVol (self : attrs) : list tableop :=
  t_F12_LogVol self ++
  [OpAdd (mkDecl ["--cipher"] "cipher" KStore NOne VNone VNone TStr None false false);
   OpAdd (mkDecl ["--hibernation"] "hibernation" KStoreConst (NInt 0) (VBool true) (VBool false) TStr None false false);
   OpAdd (mkDecl ["--thinpool"] "thin_pool" KStoreConst (NInt 0) (VBool true) (VBool false) TStr None false false);
   OpAdd (mkDecl ["--thin"] "thin_volume" KStoreConst (NInt 0) (VBool true) (VBool false) TStr None false false);
   OpAdd (mkDecl ["--poolname"] "pool_name" KStore NOne VNone VNone TStr None false false);
   OpAdd (mkDecl ["--chunksize"] "chunk_size" KStore NOne VNone VNone TInt None false false);
   OpAdd (mkDecl ["--metadatasize"] "metadata_size" KStore NOne VNone VNone TInt None false false);
   OpAdd (mkDecl ["--profile"] "profile" KStore NOne VNone VNone TStr None false false)].
(** commands/logvol.py:648-651 *)
Definition t_F14_LogVol (self : attrs) : list tableop :=
  t_F12_LogVol self ++
  [OpRemove "--bytes-per-inode"].
(** commands/logvol.py:657-663 *)
Definition t_F15_LogVol (self : attrs) : list tableop :=
  t_F14_LogVol self ++
  [OpAdd (mkDecl ["--label"] "label" KStore NOne VNone VNone TStr None false false)].
(** commands/logvol.py:669-677 *)
Definition t_F17_LogVol (self : attrs) : list tableop :=
  t_F15_LogVol self ++
  [OpAdd (mkDecl ["--resize"] "resize" KStoreConst (NInt 0) (VBool true) (VBool false) TStr None false false)].
(** commands/logvol.py:694-706 *)
Definition t_F18_LogVol (self : attrs) : list tableop :=
  t_F17_LogVol self ++
  [OpAdd (mkDecl ["--hibernation"] "hibernation" KStoreConst (NInt 0) (VBool true) (VBool false) TStr None false false);
   OpAdd (mkDecl ["--cipher"] "cipher" KStore NOne VNone VNone TStr None false false)].
(** commands/logvol.py:712-733 *)
Definition t_F20_LogVol (self : attrs) : list tableop :=
  t_F18_LogVol self ++
  [OpAdd (mkDecl ["--thinpool"] "thin_pool" KStoreConst (NInt 0) (VBool true) (VBool false) TStr None false false);
   OpAdd (mkDecl ["--thin"] "thin_volume" KStoreConst (NInt 0) (VBool true) (VBool false) TStr None false false);
   OpAdd (mkDecl ["--poolname"] "pool_name" KStore NOne VNone VNone TStr None false false);
   OpAdd (mkDecl ["--chunksize"] "chunk_size" KStore NOne VNone VNone TInt None false false);
   OpAdd (mkDecl ["--metadatasize"] "metadata_size" KStore NOne VNone VNone TInt None false false)].
(** commands/logvol.py:775-781 *)
Definition t_F21_LogVol (self : attrs) : list tableop :=
  t_F20_LogVol self ++
  [OpAdd (mkDecl ["--profile"] "profile" KStore NOne VNone VNone TStr None false false)].
(** commands/logvol.py:796-806 *)
Definition t_RHEL7_LogVol (self : attrs) : list tableop :=
  t_F21_LogVol self ++
  [OpAdd (mkDecl ["--mkfsoptions"] "mkfsopts" KStore NOne VNone VNone TStr None false false)].
(** commands/logvol.py:821-842 *)
Definition t_F23_LogVol (self : attrs) : list tableop :=
  t_F21_LogVol self ++
  [OpAdd (mkDecl ["--cachesize"] "cache_size" KStore NOne VNone VNone TInt None false false);
   OpAdd (mkDecl ["--cachemode"] "cache_mode" KStore NOne VNone VNone TStr None false false);
   OpAdd (mkDecl ["--cachepvs"] "cache_pvs" KStore NOne VNone VNone TComma None false false);
   OpAdd (mkDecl ["--mkfsoptions"] "mkfsopts" KStore NOne VNone VNone TStr None false false)].
(** commands/logvol.py:880-913 *)
Definition t_F29_LogVol (self : attrs) : list tableop :=
  t_F23_LogVol self ++
  [OpAdd (mkDecl ["--luks-version"] "luks_version" KStore NOne VNone (VStr "") TStr None false false);
   OpAdd (mkDecl ["--pbkdf"] "pbkdf" KStore NOne VNone (VStr "") TStr None false false);
   OpAdd (mkDecl ["--pbkdf-memory"] "pbkdf_memory" KStore NOne VNone (VInt 0) TInt None false false);
   OpAdd (mkDecl ["--pbkdf-time"] "pbkdf_time" KStore NOne VNone (VInt 0) TInt None false false);
   OpAdd (mkDecl ["--pbkdf-iterations"] "pbkdf_iterations" KStore NOne VNone (VInt 0) TInt None false false)].
(** commands/logvol.py:934-944 *)
Definition t_RHEL8_LogVol (self : attrs) : list tableop :=
  t_F29_LogVol self.
(** commands/mediacheck.py:40-46 *)
Definition t_FC4_MediaCheck (self : attrs) : list tableop :=
  [].
(** commands/module.py:102-131 *)
Definition t_F29_Module (self : attrs) : list tableop :=
  [OpAdd (mkDecl ["--name"] "name" KStore NOne VNone VNone TStr None true false);
   OpAdd (mkDecl ["--stream"] "stream" KStore NOne VNone VNone TStr None false false)].
(** commands/module.py:157-163 *)
Definition t_RHEL8_Module (self : attrs) : list tableop :=
  t_F29_Module self ++
  [OpAdd (mkDecl ["--disable"] "enable" KStoreConst (NInt 0) (VBool false) (VBool true) TStr None false false)].
(** commands/monitor.py:51-72 *)
Definition t_FC3_Monitor (self : attrs) : list tableop :=
  [OpAdd (mkDecl ["--hsync"] "hsync" KStore NOne VNone VNone TStr None false false);
   OpAdd (mkDecl ["--monitor"] "monitor" KStore NOne VNone VNone TStr None false false);
   OpAdd (mkDecl ["--vsync"] "vsync" KStore NOne VNone VNone TStr None false false)].
(** commands/monitor.py:104-109 *)
Definition t_FC6_Monitor (self : attrs) : list tableop :=
  t_FC3_Monitor self ++
  [OpAdd (mkDecl ["--noprobe"] "probe" KStoreConst (NInt 0) (VBool false) (VBool true) TStr None false false)].
(** commands/monitor.py:115-118 *)
Definition t_F10_Monitor (self : attrs) : list tableop :=
  t_FC6_Monitor self.
(** commands/monitor.py:121-124 *)
Definition t_F18_Monitor (self : attrs) : list tableop :=
  t_F10_Monitor self.
(** commands/mount.py:93-143 *)
Definition t_F27_Mount (self : attrs) : list tableop :=
  [OpAdd (mkDecl [] "device" KStore (NInt 1) VNone VNone TStr None true false);
   OpAdd (mkDecl [] "mntpoint" KStore (NInt 1) VNone VNone TMount None true false);
   OpAdd (mkDecl ["--reformat"] "reformat" KStore NOpt (VBool true) (VBool false) TStr None false false);
   OpAdd (mkDecl ["--mkfsoptions"] "mkfs_opts" KStore NOne VNone VNone TStr None false false);
   OpAdd (mkDecl ["--mountoptions"] "mount_opts" KStore NOne VNone VNone TStr None false false)].
(** commands/mouse.py:52-59 *)
Definition t_RHEL3_Mouse (self : attrs) : list tableop :=
  [OpAdd (mkDecl ["--device"] "device" KStore NOne VNone (VStr "") TStr None false false);
   OpAdd (mkDecl ["--emulthree"] "emulthree" KStoreConst (NInt 0) (VBool true) (VBool false) TStr None false false)].
(** commands/mouse.py:78-81 *)
Definition t_FC3_Mouse (self : attrs) : list tableop :=
  t_RHEL3_Mouse self.
(** commands/mouse.py:84-87 *)
Definition t_F7_Mouse (self : attrs) : list tableop :=
  t_FC3_Mouse self.
(** commands/network.py:374-461 *)
Definition t_FC3_Network (self : attrs) : list tableop :=
  [OpAdd (mkDecl ["--bootproto"] "bootProto" KStore NOne VNone (VStr "dhcp") TStr (Some (strings_of "bootprotoList" self)) false false);
   OpAdd (mkDecl ["--dhcpclass"] "dhcpclass" KStore NOne VNone VNone TStr None false false);
   OpAdd (mkDecl ["--device"] "device" KStore NOne VNone VNone TStr None false false);
   OpAdd (mkDecl ["--essid"] "essid" KStore NOne VNone VNone TStr None false false);
   OpAdd (mkDecl ["--ethtool"] "ethtool" KStore NOne VNone VNone TStr None false false);
   OpAdd (mkDecl ["--gateway"] "gateway" KStore NOne VNone VNone TStr None false false);
   OpAdd (mkDecl ["--hostname"] "hostname" KStore NOne VNone VNone TStr None false false);
   OpAdd (mkDecl ["--ip"] "ip" KStore NOne VNone VNone TStr None false false);
   OpAdd (mkDecl ["--mtu"] "mtu" KStore NOne VNone VNone TStr None false false);
   OpAdd (mkDecl ["--nameserver"] "nameserver" KStore NOne VNone VNone TStr None false false);
   OpAdd (mkDecl ["--netmask"] "netmask" KStore NOne VNone VNone TStr None false false);
   OpAdd (mkDecl ["--nodns"] "nodns" KStoreConst (NInt 0) (VBool true) (VBool false) TStr None false false);
   OpAdd (mkDecl ["--onboot"] "onboot" KStore NOne VNone VNone TBool None false false);
   OpAdd (mkDecl ["--wepkey"] "wepkey" KStore NOne VNone VNone TStr None false false)].
(** commands/network.py:486-491 *)
Definition t_FC4_Network (self : attrs) : list tableop :=
  t_FC3_Network self ++
  [OpAdd (mkDecl ["--notksdevice"] "notksdevice" KStoreConst (NInt 0) (VBool true) (VBool false) TStr None false false)].
(** commands/network.py:497-503 *)
Definition t_FC6_Network (self : attrs) : list tableop :=
  t_FC4_Network self ++
  [OpAdd (mkDecl ["--noipv4"] "noipv4" KStoreConst (NInt 0) (VBool true) (VBool false) TStr None false false);
   OpAdd (mkDecl ["--noipv6"] "noipv6" KStoreConst (NInt 0) (VBool true) (VBool false) TStr None false false)].
(** commands/network.py:509-517 *)
Definition t_F8_Network (self : attrs) : list tableop :=
  t_FC6_Network self ++
  [OpAdd (mkDecl ["--ipv6"] "ipv6" KStore NOne VNone VNone TStr None false false)].
(** commands/network.py:527-537 *)
Definition t_F9_Network (self : attrs) : list tableop :=
  t_F8_Network self.
(** commands/network.py:547-568 *)
Definition t_F16_Network (self : attrs) : list tableop :=
  t_F9_Network self ++
  [OpAdd (mkDecl ["--activate"] "activate" KStoreConst (NInt 0) (VBool true) VNone TStr None false false);
   OpAdd (mkDecl ["--nodefroute"] "nodefroute" KStoreConst (NInt 0) (VBool true) (VBool false) TStr None false false);
   OpAdd (mkDecl ["--wpakey"] "wpakey" KStore NOne VNone (VStr "") TStr None false false)].
(** commands/network.py:581-612 *)
Definition t_F19_Network (self : attrs) : list tableop :=
  t_F16_Network self ++
  [OpAdd (mkDecl ["--bondslaves"] "bondslaves" KStore NOne VNone (VStr "") TStr None false false);
   OpAdd (mkDecl ["--bondopts"] "bondopts" KStore NOne VNone (VStr "") TStr None false false);
   OpAdd (mkDecl ["--vlanid"] "vlanid" KStore NOne VNone VNone TStr None false false);
   OpAdd (mkDecl ["--ipv6gateway"] "ipv6gateway" KStore NOne VNone (VStr "") TStr None false false)].
(** commands/network.py:616-679 *)
Definition t_F20_Network (self : attrs) : list tableop :=
  t_F19_Network self ++
  [OpAdd (mkDecl ["--teamslaves"] "teamslaves" KStore NOne VNone VNone TTeam None false false);
   OpAdd (mkDecl ["--teamconfig"] "teamconfig" KStore NOne VNone (VStr "") TStr None false false)].
(** commands/network.py:682-704 *)
Definition t_F21_Network (self : attrs) : list tableop :=
  t_F20_Network self ++
  [OpAdd (mkDecl ["--interfacename"] "interfacename" KStore NOne VNone (VStr "") TStr None false false)].
(** commands/network.py:707-726 *)
Definition t_F22_Network (self : attrs) : list tableop :=
  t_F21_Network self ++
  [OpAdd (mkDecl ["--bridgeslaves"] "bridgeslaves" KStore NOne VNone (VStr "") TStr None false false);
   OpAdd (mkDecl ["--bridgeopts"] "bridgeopts" KStore NOne VNone (VStr "") TStr None false false)].
(** commands/network.py:762-768 *)
Definition t_F25_Network (self : attrs) : list tableop :=
  t_F22_Network self ++
  [OpAdd (mkDecl ["--no-activate"] "activate" KStoreConst (NInt 0) (VBool false) VNone TStr None false false)].
(** commands/network.py:778-814 *)
Definition t_F27_Network (self : attrs) : list tableop :=
  t_F25_Network self ++
  [OpAdd (mkDecl ["--bindto"] "bindto" KStore NOne VNone VNone TStr (Some (strings_of "bind_to_choices" self)) false false)].
(** commands/network.py:831-835 *)
Definition t_RHEL4_Network (self : attrs) : list tableop :=
  t_FC3_Network self ++
  [OpAdd (mkDecl ["--notksdevice"] "notksdevice" KStoreConst (NInt 0) (VBool true) (VBool false) TStr None false false)].
(** commands/network.py:845-855 *)
Definition t_RHEL5_Network (self : attrs) : list tableop :=
  t_FC6_Network self.
(** commands/network.py:865-917 *)
Definition t_RHEL6_Network (self : attrs) : list tableop :=
  t_F9_Network self ++
  [OpAdd (mkDecl ["--activate"] "activate" KStoreConst (NInt 0) (VBool true) VNone TStr None false false);
   OpAdd (mkDecl ["--nodefroute"] "nodefroute" KStoreConst (NInt 0) (VBool true) (VBool false) TStr None false false);
   OpAdd (mkDecl ["--vlanid"] "vlanid" KStore NOne VNone VNone TStr None false false);
   OpAdd (mkDecl ["--bondslaves"] "bondslaves" KStore NOne VNone VNone TStr None false false);
   OpAdd (mkDecl ["--bondopts"] "bondopts" KStore NOne VNone VNone TStr None false false)].
(** commands/network.py:966-1023 *)
Definition t_RHEL7_Network (self : attrs) : list tableop :=
  t_F21_Network self ++
  [OpAdd (mkDecl ["--bridgeslaves"] "bridgeslaves" KStore NOne VNone (VStr "") TStr None false false);
   OpAdd (mkDecl ["--bridgeopts"] "bridgeopts" KStore NOne VNone (VStr "") TStr None false false);
   OpAdd (mkDecl ["--no-activate"] "activate" KStoreConst (NInt 0) (VBool false) VNone TStr None false false);
   OpAdd (mkDecl ["--bindto"] "bindto" KStore NOne VNone VNone TStr (Some (strings_of "bind_to_choices" self)) false false)].
(** commands/nfs.py:52-68 *)
Definition t_FC3_NFS (self : attrs) : list tableop :=
  [OpAdd (mkDecl ["--server"] "server" KStore NOne VNone VNone TStr None true false);
   OpAdd (mkDecl ["--dir"] "dir" KStore NOne VNone VNone TStr None true false)].
(** commands/nfs.py:98-106 *)
Definition t_FC6_NFS (self : attrs) : list tableop :=
  t_FC3_NFS self ++
  [OpAdd (mkDecl ["--opts"] "opts" KStore NOne VNone VNone TStr None false false)].
(** commands/nvdimm.py:101-126 *)
Definition t_F28_Nvdimm (self : attrs) : list tableop :=
  [OpAdd (mkDecl [] "action" KStore (NInt 1) VNone (VStr "reconfigure") TStr (Some (strings_of "validActions" self)) true false);
   OpAdd (mkDecl ["--namespace"] "namespace" KStore NOne VNone VNone TStr None false false);
   OpAdd (mkDecl ["--blockdevs"] "blockdevs" KStore NOne VNone VNone TComma None false false);
   OpAdd (mkDecl ["--mode"] "mode" KStore NOne VNone (VStr "sector") TStr (Some (strings_of "validModes" self)) false false);
   OpAdd (mkDecl ["--sectorsize"] "sectorsize" KStore NOne VNone VNone TInt None false false)].
(** commands/ostreesetup.py:59-75 *)
Definition t_F21_OSTreeSetup (self : attrs) : list tableop :=
  [OpAdd (mkDecl ["--osname"] "osname" KStore NOne VNone VNone TStr None true false);
   OpAdd (mkDecl ["--remote"] "remote" KStore NOne VNone VNone TStr None false false);
   OpAdd (mkDecl ["--url"] "url" KStore NOne VNone VNone TStr None true false);
   OpAdd (mkDecl ["--ref"] "ref" KStore NOne VNone VNone TStr None true false);
   OpAdd (mkDecl ["--nogpg"] "nogpg" KStoreConst (NInt 0) (VBool true) (VBool false) TStr None false false)].
(** commands/partition.py:321-431 *)
Definition t_FC3_Partition (self : attrs) : list tableop :=
  [OpAdd (mkDecl [] "mntpoint" KStore (NInt 1) VNone VNone TMount None true false);
   OpAdd (mkDecl ["--active"] "active" KStoreConst (NInt 0) (VBool true) (VBool false) TStr None false false);
   OpAdd (mkDecl ["--asprimary"] "primOnly" KStoreConst (NInt 0) (VBool true) (VBool false) TStr None false false);
   OpAdd (mkDecl ["--start"] "start" KStore NOne VNone VNone TInt None false false);
   OpAdd (mkDecl ["--end"] "end" KStore NOne VNone VNone TInt None false false);
   OpAdd (mkDecl ["--fstype"; "--type"] "fstype" KStore NOne VNone VNone TStr None false false);
   OpAdd (mkDecl ["--grow"] "grow" KStoreConst (NInt 0) (VBool true) (VBool false) TStr None false false);
   OpAdd (mkDecl ["--maxsize"] "maxSizeMB" KStore NOne VNone VNone TInt None false false);
   OpAdd (mkDecl ["--noformat"] "format" KStoreConst (NInt 0) (VBool false) (VBool true) TStr None false false);
   OpAdd (mkDecl ["--onbiosdisk"] "onbiosdisk" KStore NOne VNone VNone TStr None false false);
   OpAdd (mkDecl ["--ondisk"; "--ondrive"] "disk" KStore NOne VNone VNone TStr None false false);
   OpAdd (mkDecl ["--onpart"; "--usepart"] "onPart" KStore NOne VNone VNone (TDrop "/dev/") None false false);
   OpAdd (mkDecl ["--recommended"] "recommended" KStoreConst (NInt 0) (VBool true) (VBool false) TStr None false false);
   OpAdd (mkDecl ["--size"] "size" KStore NOne VNone VNone TInt None false false)].
(** commands/partition.py:463-477 *)
Definition t_FC4_Partition (self : attrs) : list tableop :=
  t_FC3_Partition self ++
  [OpAdd (mkDecl ["--bytes-per-inode"] "bytesPerInode" KStore NOne VNone VNone TInt None false false);
   OpAdd (mkDecl ["--fsoptions"] "fsopts" KStore NOne VNone VNone TStr None false false);
   OpAdd (mkDecl ["--label"] "label" KStore NOne VNone VNone TStr None false false)].
(** commands/partition.py:483-494 *)
Definition t_RHEL5_Partition (self : attrs) : list tableop :=
  t_FC4_Partition self ++
  [OpAdd (mkDecl ["--encrypted"] "encrypted" KStoreConst (NInt 0) (VBool true) (VBool false) TStr None false false);
   OpAdd (mkDecl ["--passphrase"] "passphrase" KStore NOne VNone VNone TStr None false false)].
(** commands/partition.py:500-521 *)
Definition t_F9_Partition (self : attrs) : list tableop :=
  t_FC4_Partition self ++
  [OpAdd (mkDecl ["--bytes-per-inode"] "bytes_per_inode" KStore NOne VNone VNone TStr None false true);
   OpAdd (mkDecl ["--fsprofile"] "fsprofile" KStore NOne VNone VNone TStr None false false);
   OpAdd (mkDecl ["--encrypted"] "encrypted" KStoreConst (NInt 0) (VBool true) (VBool false) TStr None false false);
   OpAdd (mkDecl ["--passphrase"] "passphrase" KStore NOne VNone VNone TStr None false false)].
(** commands/partition.py:527-531 *)
Definition t_F11_Partition (self : attrs) : list tableop :=
  t_F9_Partition self ++
  [OpAdd (mkDecl ["--start"] "start" KStore NOne VNone VNone TStr None false true);
   OpAdd (mkDecl ["--end"] "end" KStore NOne VNone VNone TStr None false true)].
(** commands/partition.py:537-554 *)
Definition t_F12_Partition (self : attrs) : list tableop :=
  t_F11_Partition self ++
  [OpAdd (mkDecl ["--escrowcert"] "escrowcert" KStore NOne VNone VNone TStr None false false);
   OpAdd (mkDecl ["--backuppassphrase"] "backuppassphrase" KStoreConst (NInt 0) (VBool true) (VBool false) TStr None false false)].
(** commands/partition.py:560-571 *)
Definition t_RHEL6_Partition (self : attrs) : list tableop :=
  t_F12_Partition self ++
  [OpAdd (mkDecl ["--cipher"] "cipher" KStore NOne VNone VNone TStr None false false);
   OpAdd (mkDecl ["--hibernation"] "hibernation" KStoreConst (NInt 0) (VBool true) (VBool false) TStr None false false)].
(** commands/partition.py:587-592 *)
Definition t_F14_Partition (self : attrs) : list tableop :=
  t_F12_Partition self ++
  [OpRemove "--bytes-per-inode";
   OpRemove "--start";
   OpRemove "--end"].
(** commands/partition.py:598-605 *)
Definition t_F17_Partition (self : attrs) : list tableop :=
  t_F14_Partition self ++
  [OpAdd (mkDecl ["--resize"] "resize" KStoreConst (NInt 0) (VBool true) (VBool false) TStr None false false)].
(** commands/partition.py:622-633 *)
Definition t_F18_Partition (self : attrs) : list tableop :=
  t_F17_Partition self ++
  [OpAdd (mkDecl ["--hibernation"] "hibernation" KStoreConst (NInt 0) (VBool true) (VBool false) TStr None false false);
   OpAdd (mkDecl ["--cipher"] "cipher" KStore NOne VNone VNone TStr None false false)].
(** commands/partition.py:664-676 *)
Definition t_F23_Partition (self : attrs) : list tableop :=
  t_F18_Partition self ++
  [OpAdd (mkDecl ["--mkfsoptions"] "mkfsopts" KStore NOne VNone VNone TStr None false false)].
(** commands/partition.py:696-731 *)
Definition t_F29_Partition (self : attrs) : list tableop :=
  t_F23_Partition self ++
  [OpAdd (mkDecl ["--active"] "active" KStoreConst (NInt 0) (VBool true) (VBool false) TStr None false true);
   OpAdd (mkDecl ["--luks-version"] "luks_version" KStore NOne VNone (VStr "") TStr None false false);
   OpAdd (mkDecl ["--pbkdf"] "pbkdf" KStore NOne VNone (VStr "") TStr None false false);
   OpAdd (mkDecl ["--pbkdf-memory"] "pbkdf_memory" KStore NOne VNone (VInt 0) TInt None false false);
   OpAdd (mkDecl ["--pbkdf-time"] "pbkdf_time" KStore NOne VNone (VInt 0) TInt None false false);
   OpAdd (mkDecl ["--pbkdf-iterations"] "pbkdf_iterations" KStore NOne VNone (VInt 0) TInt None false false)].
(** commands/partition.py:752-762 *)
Definition t_RHEL8_Partition (self : attrs) : list tableop :=
  t_F29_Partition self.
(** commands/partition.py:768-771 *)
Definition t_F34_Partition (self : attrs) : list tableop :=
  t_F29_Partition self ++
  [OpRemove "--active"].
(** commands/raid.py:337-412 *)
Definition t_FC3_Raid (self : attrs) : list tableop :=
  [OpAdd (mkDecl [] "mntpoint" KStore (NInt 1) VNone VNone TMount None true false);
   OpAdd (mkDecl [] "partitions" KStore NStar VNone VNone TStr None true false);
   OpAdd (mkDecl ["--device"] "device" KStore NOne VNone VNone (TDrop "md") None true false);
   OpAdd (mkDecl ["--fstype"] "fstype" KStore NOne VNone VNone TStr None false false);
   OpAdd (mkDecl ["--level"] "level" KStore NOne VNone VNone (TName true (pairs_of "levelMap" self)) None false false);
   OpAdd (mkDecl ["--noformat"] "format" KStoreConst (NInt 0) (VBool false) (VBool true) TStr None false false);
   OpAdd (mkDecl ["--spares"] "spares" KStore NOne VNone (VInt 0) TInt None false false);
   OpAdd (mkDecl ["--useexisting"] "preexist" KStoreConst (NInt 0) (VBool true) (VBool false) TStr None false false)].
(** commands/raid.py:479-486 *)
Definition t_FC4_Raid (self : attrs) : list tableop :=
  t_FC3_Raid self ++
  [OpAdd (mkDecl ["--fsoptions"] "fsopts" KStore NOne VNone VNone TStr None false false)].
(** commands/raid.py:492-496 *)
Definition t_FC5_Raid (self : attrs) : list tableop :=
  t_FC4_Raid self ++
  [OpAdd (mkDecl ["--bytes-per-inode"] "bytesPerInode" KStore NOne VNone VNone TInt None false false)].
(** commands/raid.py:507-528 *)
Definition t_RHEL5_Raid (self : attrs) : list tableop :=
  t_FC5_Raid self ++
  [OpAdd (mkDecl ["--encrypted"] "encrypted" KStoreConst (NInt 0) (VBool true) (VBool false) TStr None false false);
   OpAdd (mkDecl ["--passphrase"] "passphrase" KStore NOne VNone VNone TStr None false false)].
(** commands/raid.py:539-549 *)
Definition t_F7_Raid (self : attrs) : list tableop :=
  t_FC5_Raid self.
(** commands/raid.py:555-576 *)
Definition t_F9_Raid (self : attrs) : list tableop :=
  t_F7_Raid self ++
  [OpAdd (mkDecl ["--bytes-per-inode"] "bytes_per_inode" KStore NOne VNone VNone TStr None false true);
   OpAdd (mkDecl ["--fsprofile"] "fsprofile" KStore NOne VNone VNone TStr None false false);
   OpAdd (mkDecl ["--encrypted"] "encrypted" KStoreConst (NInt 0) (VBool true) (VBool false) TStr None false false);
   OpAdd (mkDecl ["--passphrase"] "passphrase" KStore NOne VNone VNone TStr None false false)].
(** commands/raid.py:582-599 *)
Definition t_F12_Raid (self : attrs) : list tableop :=
  t_F9_Raid self ++
  [OpAdd (mkDecl ["--escrowcert"] "escrowcert" KStore NOne VNone VNone TStr None false false);
   OpAdd (mkDecl ["--backuppassphrase"] "backuppassphrase" KStoreConst (NInt 0) (VBool true) (VBool false) TStr None false false)].
(** commands/raid.py:610-620 *)
Definition t_F13_Raid (self : attrs) : list tableop :=
  t_F12_Raid self.
(** commands/raid.py:626-632 *)
Definition t_RHEL6_Raid (self : attrs) : list tableop :=
  t_F13_Raid self ++
  [OpAdd (mkDecl ["--cipher"] "cipher" KStore NOne VNone VNone TStr None false false)].
(** commands/raid.py:648-651 *)
Definition t_F14_Raid (self : attrs) : list tableop :=
  t_F13_Raid self ++
  [OpRemove "--bytes-per-inode"].
(** commands/raid.py:657-663 *)
Definition t_F15_Raid (self : attrs) : list tableop :=
  t_F14_Raid self ++
  [OpAdd (mkDecl ["--label"] "label" KStore NOne VNone VNone TStr None false false)].
(** commands/raid.py:669-675 *)
Definition t_F18_Raid (self : attrs) : list tableop :=
  t_F15_Raid self ++
  [OpAdd (mkDecl ["--cipher"] "cipher" KStore NOne VNone VNone TStr None false false)].
(** commands/raid.py:706-716 *)
Definition t_F23_Raid (self : attrs) : list tableop :=
  t_F18_Raid self ++
  [OpAdd (mkDecl ["--mkfsoptions"] "mkfsopts" KStore NOne VNone VNone TStr None false false)].
(** commands/raid.py:733-739 *)
Definition t_F25_Raid (self : attrs) : list tableop :=
  t_F23_Raid self ++
  [OpAdd (mkDecl ["--chunksize"] "chunk_size" KStore NOne VNone VNone TInt None false false)].
(** commands/raid.py:748-781 *)
Definition t_F29_Raid (self : attrs) : list tableop :=
  t_F25_Raid self ++
  [OpAdd (mkDecl ["--luks-version"] "luks_version" KStore NOne VNone (VStr "") TStr None false false);
   OpAdd (mkDecl ["--pbkdf"] "pbkdf" KStore NOne VNone (VStr "") TStr None false false);
   OpAdd (mkDecl ["--pbkdf-memory"] "pbkdf_memory" KStore NOne VNone (VInt 0) TInt None false false);
   OpAdd (mkDecl ["--pbkdf-time"] "pbkdf_time" KStore NOne VNone (VInt 0) TInt None false false);
   OpAdd (mkDecl ["--pbkdf-iterations"] "pbkdf_iterations" KStore NOne VNone (VInt 0) TInt None false false)].
(** commands/raid.py:802-812 *)
Definition t_RHEL8_Raid (self : attrs) : list tableop :=
  t_F29_Raid self.
(** commands/reboot.py:57-78 *)
Definition t_FC3_Reboot (self : attrs) : list tableop :=
  [].
(** commands/reboot.py:99-105 *)
Definition t_FC6_Reboot (self : attrs) : list tableop :=
  t_FC3_Reboot self ++
  [OpAdd (mkDecl ["--eject"] "eject" KStoreConst (NInt 0) (VBool true) (VBool false) TStr None false false)].
(** commands/reboot.py:136-151 *)
Definition t_F18_Reboot (self : attrs) : list tableop :=
  t_FC6_Reboot self.
(** commands/reboot.py:171-177 *)
Definition t_F23_Reboot (self : attrs) : list tableop :=
  t_F18_Reboot self ++
  [OpAdd (mkDecl ["--kexec"] "kexec" KStoreConst (NInt 0) (VBool true) (VBool false) TStr None false false)].
(** commands/repo.py:222-273 *)
Definition t_FC6_Repo (self : attrs) : list tableop :=
  [OpAdd (mkDecl ["--name"] "name" KStore NOne VNone VNone TStr None true false);
   OpAdd (mkDecl ["--baseurl"] "baseurl" KStore NOne VNone VNone TStr None false false);
   OpAdd (mkDecl ["--mirrorlist"] "mirrorlist" KStore NOne VNone VNone TStr None false false)].
(** commands/repo.py:316-338 *)
Definition t_F8_Repo (self : attrs) : list tableop :=
  t_FC6_Repo self ++
  [OpAdd (mkDecl ["--cost"] "cost" KStore NOne VNone VNone TInt None false false);
   OpAdd (mkDecl ["--excludepkgs"] "excludepkgs" KStore NOne VNone VNone TComma None false false);
   OpAdd (mkDecl ["--includepkgs"] "includepkgs" KStore NOne VNone VNone TComma None false false)].
(** commands/repo.py:352-360 *)
Definition t_F11_Repo (self : attrs) : list tableop :=
  t_F8_Repo self ++
  [OpAdd (mkDecl ["--ignoregroups"] "ignoregroups" KStore NOne VNone VNone TBool None false false)].
(** commands/repo.py:366-377 *)
Definition t_F13_Repo (self : attrs) : list tableop :=
  t_F11_Repo self ++
  [OpAdd (mkDecl ["--proxy"] "proxy" KStore NOne VNone VNone TStr None false false)].
(** commands/repo.py:383-391 *)
Definition t_F14_Repo (self : attrs) : list tableop :=
  t_F13_Repo self ++
  [OpAdd (mkDecl ["--noverifyssl"] "noverifyssl" KStoreConst (NInt 0) (VBool true) (VBool false) TStr None false false)].
(** commands/repo.py:402-413 *)
Definition t_F15_Repo (self : attrs) : list tableop :=
  t_F14_Repo self.
(** commands/repo.py:419-425 *)
Definition t_F21_Repo (self : attrs) : list tableop :=
  t_F15_Repo self ++
  [OpAdd (mkDecl ["--install"] "install" KStoreConst (NInt 0) (VBool true) (VBool false) TStr None false false)].
(** commands/repo.py:435-453 *)
Definition t_F27_Repo (self : attrs) : list tableop :=
  t_F21_Repo self ++
  [OpAdd (mkDecl ["--metalink"] "metalink" KStore NOne VNone VNone TStr None false false)].
(** commands/repo.py:459-482 *)
Definition t_F30_Repo (self : attrs) : list tableop :=
  t_F27_Repo self ++
  [OpAdd (mkDecl ["--sslcacert"] "sslcacert" KStore NOne VNone VNone TStr None false false);
   OpAdd (mkDecl ["--sslclientcert"] "sslclientcert" KStore NOne VNone VNone TStr None false false);
   OpAdd (mkDecl ["--sslclientkey"] "sslclientkey" KStore NOne VNone VNone TStr None false false)].
(** commands/repo.py:488-491 *)
Definition t_F33_Repo (self : attrs) : list tableop :=
  t_F30_Repo self ++
  [OpAdd (mkDecl ["--ignoregroups"] "ignoregroups" KStore NOne VNone VNone TBool None false true)].
(** commands/reqpart.py:52-73 *)
Definition t_F23_ReqPart (self : attrs) : list tableop :=
  [OpAdd (mkDecl ["--add-boot"] "addBoot" KStoreConst (NInt 0) (VBool true) (VBool false) TStr None false false)].
(** commands/rescue.py:54-71 *)
Definition t_F10_Rescue (self : attrs) : list tableop :=
  [OpAdd (mkDecl ["--nomount"] "nomount" KStoreConst (NInt 0) (VBool true) (VBool false) TStr None false false);
   OpAdd (mkDecl ["--romount"] "romount" KStoreConst (NInt 0) (VBool true) (VBool false) TStr None false false)].
(** commands/rhsm.py:68-102 *)
Definition t_RHEL8_RHSM (self : attrs) : list tableop :=
  [OpAdd (mkDecl ["--organization"] "organization" KStore NOne VNone VNone TStr None true false);
   OpAdd (mkDecl ["--activation-key"] "activation_keys" KAppend NOne VNone VNone TStr None true false);
   OpAdd (mkDecl ["--connect-to-insights"] "connect_to_insights" KStoreConst (NInt 0) (VBool true) (VBool false) TStr None false false);
   OpAdd (mkDecl ["--proxy"] "proxy" KStore NOne VNone VNone TStr None false false);
   OpAdd (mkDecl ["--server-hostname"] "server_hostname" KStore NOne VNone VNone TStr None false false);
   OpAdd (mkDecl ["--rhsm-baseurl"] "rhsm_baseurl" KStore NOne VNone VNone TStr None false false)].
(** commands/rootpw.py:63-79 *)
Definition t_FC3_RootPw (self : attrs) : list tableop :=
  [OpAdd (mkDecl [] "password" KStore NOpt VNone VNone TStr None false false);
   OpAdd (mkDecl ["--iscrypted"] "isCrypted" KStoreConst (NInt 0) (VBool true) (VBool false) TStr None false false)].
(** commands/rootpw.py:112-124 *)
Definition t_F8_RootPw (self : attrs) : list tableop :=
  t_FC3_RootPw self ++
  [OpAdd (mkDecl ["--lock"] "lock" KStoreConst (NInt 0) (VBool true) (VBool false) TStr None false false);
   OpAdd (mkDecl ["--plaintext"] "isCrypted" KStoreConst (NInt 0) (VBool false) (VBool true) TStr None false false)].
(** commands/selinux.py:52-73 *)
Definition t_FC3_SELinux (self : attrs) : list tableop :=
  [OpAdd (mkDecl ["--disabled"] "selinux" KStoreConst (NInt 0) (VInt 0) VNone TStr None false false);
   OpAdd (mkDecl ["--enforcing"] "selinux" KStoreConst (NInt 0) (VInt 1) VNone TStr None false false);
   OpAdd (mkDecl ["--permissive"] "selinux" KStoreConst (NInt 0) (VInt 2) VNone TStr None false false)].
(** commands/services.py:52-69 *)
Definition t_FC6_Services (self : attrs) : list tableop :=
  [OpAdd (mkDecl ["--disabled"] "disabled" KStore NOne VNone VNone TComma None false false);
   OpAdd (mkDecl ["--enabled"] "enabled" KStore NOne VNone VNone TComma None false false)].
(** commands/skipx.py:41-45 *)
Definition t_FC3_SkipX (self : attrs) : list tableop :=
  [].
(** commands/snapshot.py:93-111 *)
Definition t_F26_Snapshot (self : attrs) : list tableop :=
  [OpAdd (mkDecl [] "origin" KStore NOne VNone VNone TStr None true false);
   OpAdd (mkDecl ["--name"] "name" KStore NOne VNone VNone TStr None true false);
   OpAdd (mkDecl ["--when"] "when" KStore NOne VNone VNone (TCode (codes_of "whenMap" self)) None true false)].
(** commands/sshkey.py:78-93 *)
Definition t_F22_SshKey (self : attrs) : list tableop :=
  [OpAdd (mkDecl ["--username"] "username" KStore NOne VNone VNone TStr None true false);
   OpAdd (mkDecl [] "sshkey" KStore (NInt 1) VNone VNone TStr None true false)].
(** commands/sshpw.py:112-153 *)
Definition t_F13_SshPw (self : attrs) : list tableop :=
  [OpAdd (mkDecl ["--username"] "username" KStore NOne VNone VNone TStr None true false);
   OpAdd (mkDecl ["--iscrypted"] "isCrypted" KStoreConst (NInt 0) (VBool true) (VBool false) TStr None false false);
   OpAdd (mkDecl ["--plaintext"] "isCrypted" KStoreConst (NInt 0) (VBool false) (VBool true) TStr None false false);
   OpAdd (mkDecl ["--lock"] "lock" KStoreConst (NInt 0) (VBool true) (VBool false) TStr None false false);
   OpAdd (mkDecl [] "password" KStore NStar VNone VNone TStr None true false)].
(** commands/sshpw.py:185-191 *)
Definition t_F24_SshPw (self : attrs) : list tableop :=
  t_F13_SshPw self ++
  [OpAdd (mkDecl ["--sshkey"] "sshkey" KStoreConst (NInt 0) (VBool true) (VBool false) TStr None false false)].
(** commands/syspurpose.py:60-80 *)
Definition t_RHEL8_Syspurpose (self : attrs) : list tableop :=
  [OpAdd (mkDecl ["--role"] "role" KStore NOne VNone VNone TStr None false false);
   OpAdd (mkDecl ["--sla"] "sla" KStore NOne VNone VNone TStr None false false);
   OpAdd (mkDecl ["--usage"] "usage" KStore NOne VNone VNone TStr None false false);
   OpAdd (mkDecl ["--addon"] "addons" KAppend NOne VNone VNone TStr None false false)].
(** commands/timesource.py:96-123 *)
Definition t_F33_Timesource (self : attrs) : list tableop :=
  [OpAdd (mkDecl ["--ntp-server"] "ntp_server" KStore NOne VNone VNone TStr None false false);
   OpAdd (mkDecl ["--ntp-pool"] "ntp_pool" KStore NOne VNone VNone TStr None false false);
   OpAdd (mkDecl ["--ntp-disable"] "ntp_disable" KStoreConst (NInt 0) (VBool true) (VBool false) TStr None false false);
   OpAdd (mkDecl ["--nts"] "nts" KStoreConst (NInt 0) (VBool true) (VBool false) TStr None false false)].
(** commands/timezone.py:52-71 *)
Definition t_FC3_Timezone (self : attrs) : list tableop :=
  [OpAdd (mkDecl ["--utc"] "isUtc" KStoreConst (NInt 0) (VBool true) (VBool false) TStr None false false);
   OpAdd (mkDecl [] "timezone" KStore (NInt 1) VNone VNone TStr None true false)].
(** commands/timezone.py:104-109 *)
Definition t_FC6_Timezone (self : attrs) : list tableop :=
  t_FC3_Timezone self ++
  [OpAdd (mkDecl ["--utc"; "--isUtc"] "isUtc" KStoreConst (NInt 0) (VBool true) (VBool false) TStr None false false)].
(** commands/timezone.py:141-160 *)
Definition t_F18_Timezone (self : attrs) : list tableop :=
  t_FC6_Timezone self ++
  [OpAdd (mkDecl ["--nontp"] "nontp" KStoreConst (NInt 0) (VBool true) (VBool false) TStr None false false);
   OpAdd (mkDecl ["--ntpservers"] "ntpservers" KStore NOne VNone VNone TComma None false false)].
(** commands/timezone.py:219-258 *)
Definition t_RHEL7_Timezone (self : attrs) : list tableop :=
  [OpAdd (mkDecl [] "timezone" KStore NStar VNone VNone TStr None true false);
   OpAdd (mkDecl ["--utc"; "--isUtc"] "isUtc" KStoreConst (NInt 0) (VBool true) (VBool false) TStr None false false);
   OpAdd (mkDecl ["--nontp"] "nontp" KStoreConst (NInt 0) (VBool true) (VBool false) TStr None false false);
   OpAdd (mkDecl ["--ntpservers"] "ntpservers" KStore NOne VNone VNone TComma None false false)].
(** commands/timezone.py:320-359 *)
Definition t_F25_Timezone (self : attrs) : list tableop :=
  [OpAdd (mkDecl [] "timezone" KStore NStar VNone VNone TStr None true false);
   OpAdd (mkDecl ["--utc"; "--isUtc"] "isUtc" KStoreConst (NInt 0) (VBool true) (VBool false) TStr None false false);
   OpAdd (mkDecl ["--nontp"] "nontp" KStoreConst (NInt 0) (VBool true) (VBool false) TStr None false false);
   OpAdd (mkDecl ["--ntpservers"] "ntpservers" KStore NOne VNone VNone TComma None false false)].
(** commands/unsupported_hardware.py:41-43 *)
Definition t_RHEL6_UnsupportedHardware (self : attrs) : list tableop :=
  [].
(** commands/updates.py:48-60 *)
Definition t_F7_Updates (self : attrs) : list tableop :=
  [OpAdd (mkDecl [] "updates" KStore NStar VNone VNone TStr None true false)].
(** commands/updates.py:90-112 *)
Definition t_F34_Updates (self : attrs) : list tableop :=
  [OpAdd (mkDecl [] "url" KStore NOne VNone VNone TStr None true false)].
(** commands/upgrade.py:119-130 *)
Definition t_F20_Upgrade (self : attrs) : list tableop :=
  t_F11_Upgrade self.
(** commands/upgrade.py:133-136 *)
Definition t_F29_Upgrade (self : attrs) : list tableop :=
  t_F20_Upgrade self.
(** commands/url.py:54-61 *)
Definition t_FC3_Url (self : attrs) : list tableop :=
  [OpAdd (mkDecl ["--url"] "url" KStore NOne VNone VNone TStr None true false)].
(** commands/url.py:91-101 *)
Definition t_F13_Url (self : attrs) : list tableop :=
  t_FC3_Url self ++
  [OpAdd (mkDecl ["--proxy"] "proxy" KStore NOne VNone VNone TStr None false false)].
(** commands/url.py:126-134 *)
Definition t_F14_Url (self : attrs) : list tableop :=
  t_F13_Url self ++
  [OpAdd (mkDecl ["--noverifyssl"] "noverifyssl" KStoreConst (NInt 0) (VBool true) (VBool false) TStr None false false)].
(** commands/url.py:175-182 *)
Definition t_F18_Url (self : attrs) : list tableop :=
  t_F14_Url self ++
  [OpAdd (mkDecl ["--url"] "url" KStore NOne VNone VNone TStr None false false);
   OpAdd (mkDecl ["--mirrorlist"] "mirrorlist" KStore NOne VNone VNone TStr None false false)].
(** commands/url.py:237-245 *)
Definition t_F27_Url (self : attrs) : list tableop :=
  t_F18_Url self ++
  [OpAdd (mkDecl ["--url"] "url" KStore NOne VNone VNone TStr None false false);
   OpAdd (mkDecl ["--metalink"] "metalink" KStore NOne VNone VNone TStr None false false)].
(** commands/url.py:275-298 *)
Definition t_F30_Url (self : attrs) : list tableop :=
  t_F27_Url self ++
  [OpAdd (mkDecl ["--sslcacert"] "sslcacert" KStore NOne VNone VNone TStr None false false);
   OpAdd (mkDecl ["--sslclientcert"] "sslclientcert" KStore NOne VNone VNone TStr None false false);
   OpAdd (mkDecl ["--sslclientkey"] "sslclientkey" KStore NOne VNone VNone TStr None false false)].
(** commands/user.py:152-192 *)
Definition t_FC6_User (self : attrs) : list tableop :=
  [OpAdd (mkDecl ["--groups"] "groups" KStore NOne VNone VNone TComma None false false);
   OpAdd (mkDecl ["--homedir"] "homedir" KStore NOne VNone VNone TStr None false false);
   OpAdd (mkDecl ["--iscrypted"] "isCrypted" KStoreConst (NInt 0) (VBool true) (VBool false) TStr None false false);
   OpAdd (mkDecl ["--name"] "name" KStore NOne VNone VNone TStr None true false);
   OpAdd (mkDecl ["--password"] "password" KStore NOne VNone VNone TStr None false false);
   OpAdd (mkDecl ["--shell"] "shell" KStore NOne VNone VNone TStr None false false);
   OpAdd (mkDecl ["--uid"] "uid" KStore NOne VNone VNone TInt None false false)].
(** commands/user.py:217-228 *)
Definition t_F8_User (self : attrs) : list tableop :=
  t_FC6_User self ++
  [OpAdd (mkDecl ["--lock"] "lock" KStoreConst (NInt 0) (VBool true) (VBool false) TStr None false false);
   OpAdd (mkDecl ["--plaintext"] "isCrypted" KStoreConst (NInt 0) (VBool false) (VBool true) TStr None false false)].
(** commands/user.py:234-242 *)
Definition t_F12_User (self : attrs) : list tableop :=
  t_F8_User self ++
  [OpAdd (mkDecl ["--gecos"] "gecos" KStore NOne VNone VNone TStr None false false)].
(** commands/user.py:248-253 *)
Definition t_F19_User (self : attrs) : list tableop :=
  t_F12_User self ++
  [OpAdd (mkDecl ["--gid"] "gid" KStore NOne VNone VNone TInt None false false)].
(** commands/user.py:259-264 *)
Definition t_F24_User (self : attrs) : list tableop :=
  t_F19_User self ++
  [OpAdd (mkDecl ["--groups"] "groups" KStore NOne VNone VNone TComma None false false)].
(** commands/vnc.py:51-67 *)
Definition t_FC3_Vnc (self : attrs) : list tableop :=
  [OpAdd (mkDecl ["--connect"] "connect" KStore NOne VNone VNone TStr None false false);
   OpAdd (mkDecl ["--password"] "password" KStore NOne VNone VNone TStr None false false)].
(** commands/vnc.py:104-117 *)
Definition t_FC6_Vnc (self : attrs) : list tableop :=
  t_FC3_Vnc self ++
  [OpAdd (mkDecl ["--connect"] "_connect" KStore NOne VNone VNone TStr None false false);
   OpAdd (mkDecl ["--host"] "host" KStore NOne VNone VNone TStr None false false);
   OpAdd (mkDecl ["--port"] "port" KStore NOne VNone VNone TStr None false false)].
(** commands/vnc.py:139-142 *)
Definition t_F9_Vnc (self : attrs) : list tableop :=
  t_FC6_Vnc self ++
  [OpRemove "--connect"].
(** commands/volgroup.py:115-145 *)
Definition t_FC3_VolGroup (self : attrs) : list tableop :=
  [OpAdd (mkDecl [] "name" KStore NStar VNone VNone TStr None true false);
   OpAdd (mkDecl [] "partitions" KStore NStar VNone VNone TStr None true false);
   OpAdd (mkDecl ["--noformat"] "format" KStoreConst (NInt 0) (VBool false) (VBool true) TStr None false false);
   OpAdd (mkDecl ["--pesize"] "pesize" KStore NOne VNone (VInt 32768) TInt None false false);
   OpAdd (mkDecl ["--useexisting"] "preexist" KStoreConst (NInt 0) (VBool true) (VBool false) TStr None false false)].
(** commands/volgroup.py:192-203 *)
Definition t_F16_VolGroup (self : attrs) : list tableop :=
  t_FC3_VolGroup self ++
  [OpAdd (mkDecl ["--reserved-space"] "reserved_space" KStore NOne VNone VNone TInt None false false);
   OpAdd (mkDecl ["--reserved-percent"] "reserved_percent" KStore NOne VNone VNone TInt None false false)].
(** commands/volgroup.py:228-232 *)
Definition t_F21_VolGroup (self : attrs) : list tableop :=
  t_F16_VolGroup self ++
  [OpAdd (mkDecl ["--pesize"] "pesize" KStore NOne VNone (VInt 0) TInt None false false)].
(** commands/xconfig.py:75-99 *)
Definition t_FC3_XConfig (self : attrs) : list tableop :=
  [OpAdd (mkDecl ["--card"] "card" KStore NOne VNone VNone TStr None false false);
   OpAdd (mkDecl ["--defaultdesktop"] "defaultdesktop" KStore NOne VNone VNone TStr None false false);
   OpAdd (mkDecl ["--depth"] "depth" KStore NOne VNone VNone TInt None false false);
   OpAdd (mkDecl ["--hsync"] "hsync" KStore NOne VNone VNone TStr None false false);
   OpAdd (mkDecl ["--monitor"] "monitor" KStore NOne VNone VNone TStr None false false);
   OpAdd (mkDecl ["--noprobe"] "noProbe" KStoreConst (NInt 0) (VBool true) (VBool false) TStr None false false);
   OpAdd (mkDecl ["--resolution"] "resolution" KStore NOne VNone VNone TStr None false false);
   OpAdd (mkDecl ["--server"] "server" KStore NOne VNone VNone TStr None false false);
   OpAdd (mkDecl ["--startxonboot"] "startX" KStoreConst (NInt 0) (VBool true) (VBool false) TStr None false false);
   OpAdd (mkDecl ["--videoram"] "videoRam" KStore NOne VNone VNone TStr None false false);
   OpAdd (mkDecl ["--vsync"] "vsync" KStore NOne VNone VNone TStr None false false)].
(** commands/xconfig.py:137-146 *)
Definition t_FC6_XConfig (self : attrs) : list tableop :=
  t_FC3_XConfig self ++
  [OpAdd (mkDecl ["--card"] "card" KStore NOne VNone VNone TStr None false true);
   OpAdd (mkDecl ["--driver"] "driver" KStore NOne VNone VNone TStr None false false);
   OpAdd (mkDecl ["--hsync"] "hsync" KStore NOne VNone VNone TStr None false true);
   OpAdd (mkDecl ["--monitor"] "monitor" KStore NOne VNone VNone TStr None false true);
   OpAdd (mkDecl ["--noprobe"] "noprobe" KStore NOne VNone VNone TStr None false true);
   OpAdd (mkDecl ["--vsync"] "vsync" KStore NOne VNone VNone TStr None false true);
   OpRemove "--server"].
(** commands/xconfig.py:152-159 *)
Definition t_F9_XConfig (self : attrs) : list tableop :=
  t_FC6_XConfig self ++
  [OpRemove "--card";
   OpRemove "--hsync";
   OpRemove "--monitor";
   OpRemove "--noprobe";
   OpRemove "--vsync"].
(** commands/xconfig.py:169-175 *)
Definition t_F10_XConfig (self : attrs) : list tableop :=
  t_F9_XConfig self ++
  [OpAdd (mkDecl ["--driver"] "driver" KStore NOne VNone VNone TStr None false true);
   OpAdd (mkDecl ["--depth"] "depth" KStore NOne VNone VNone TStr None false true);
   OpAdd (mkDecl ["--resolution"] "resolution" KStore NOne VNone VNone TStr None false true);
   OpAdd (mkDecl ["--videoram"] "videoram" KStore NOne VNone VNone TStr None false true)].
(** commands/xconfig.py:181-187 *)
Definition t_F14_XConfig (self : attrs) : list tableop :=
  t_F10_XConfig self ++
  [OpRemove "--driver";
   OpRemove "--depth";
   OpRemove "--resolution";
   OpRemove "--videoram"].
(** commands/zerombr.py:46-56 *)
Definition t_FC3_ZeroMbr (self : attrs) : list tableop :=
  [].
(** commands/zfcp.py:103-110 *)
Definition t_FC3_ZFCP (self : attrs) : list tableop :=
  [OpAdd (mkDecl ["--devnum"] "devnum" KStore NOne VNone VNone TStr None true false);
   OpAdd (mkDecl ["--fcplun"] "fcplun" KStore NOne VNone VNone TStr None true false);
   OpAdd (mkDecl ["--scsiid"] "scsiid" KStore NOne VNone VNone TStr None true false);
   OpAdd (mkDecl ["--scsilun"] "scsilun" KStore NOne VNone VNone TStr None true false);
   OpAdd (mkDecl ["--wwpn"] "wwpn" KStore NOne VNone VNone TStr None true false)].
(** commands/zfcp.py:139-143 *)
Definition t_F12_ZFCP (self : attrs) : list tableop :=
  t_FC3_ZFCP self ++
  [OpAdd (mkDecl ["--scsiid"] "scsiid" KStore NOne VNone VNone TStr None false true);
   OpAdd (mkDecl ["--scsilun"] "scsilun" KStore NOne VNone VNone TStr None false true)].
(** commands/zfcp.py:149-153 *)
Definition t_F14_ZFCP (self : attrs) : list tableop :=
  t_F12_ZFCP self ++
  [OpRemove "--scsiid";
   OpRemove "--scsilun"].
(** commands/zipl.py:34-63 *)
Definition t_F32_Zipl (self : attrs) : list tableop :=
  [OpAdd (mkDecl ["--secure-boot"] "secure_boot" KStoreConst (NInt 0) (VInt 2) VNone TStr None false false);
   OpAdd (mkDecl ["--force-secure-boot"] "secure_boot" KStoreConst (NInt 0) (VInt 1) VNone TStr None false false);
   OpAdd (mkDecl ["--no-secure-boot"] "secure_boot" KStoreConst (NInt 0) (VInt 0) VNone TStr None false false)].

Definition tables : list (string * (attrs -> list tableop)) :=
  [("FC3_Authconfig", t_FC3_Authconfig);
   ("F28_Authconfig", t_F28_Authconfig);
   ("F28_Authselect", t_F28_Authselect);
   ("FC3_AutoPart", t_FC3_AutoPart);
   ("F9_AutoPart", t_F9_AutoPart);
   ("F12_AutoPart", t_F12_AutoPart);
   ("RHEL6_AutoPart", t_RHEL6_AutoPart);
   ("F16_AutoPart", t_F16_AutoPart);
   ("F17_AutoPart", t_F17_AutoPart);
   ("F18_AutoPart", t_F18_AutoPart);
   ("F20_AutoPart", t_F20_AutoPart);
   ("F21_AutoPart", t_F21_AutoPart);
   ("RHEL7_AutoPart", t_RHEL7_AutoPart);
   ("F26_AutoPart", t_F26_AutoPart);
   ("F29_AutoPart", t_F29_AutoPart);
   ("RHEL8_AutoPart", t_RHEL8_AutoPart);
   ("FC3_AutoStep", t_FC3_AutoStep);
   ("F34_AutoStep", t_F34_AutoStep);
   ("FC3_Bootloader", t_FC3_Bootloader);
   ("FC3_Lilo", t_FC3_Lilo);
   ("FC4_Lilo", t_FC4_Lilo);
   ("FC4_Bootloader", t_FC4_Bootloader);
   ("F8_Bootloader", t_F8_Bootloader);
   ("F12_Bootloader", t_F12_Bootloader);
   ("F14_Bootloader", t_F14_Bootloader);
   ("F15_Bootloader", t_F15_Bootloader);
   ("F17_Bootloader", t_F17_Bootloader);
   ("F18_Bootloader", t_F18_Bootloader);
   ("RHEL5_Bootloader", t_RHEL5_Bootloader);
   ("RHEL6_Bootloader", t_RHEL6_Bootloader);
   ("F19_Bootloader", t_F19_Bootloader);
   ("F21_Bootloader", t_F21_Bootloader);
   ("F29_Bootloader", t_F29_Bootloader);
   ("F34_Bootloader", t_F34_Bootloader);
   ("F17_BTRFS", t_F17_BTRFS);
   ("F23_BTRFS", t_F23_BTRFS);
   ("RHEL8_BTRFS", t_RHEL8_BTRFS);
   ("FC3_Cdrom", t_FC3_Cdrom);
   ("FC3_ClearPart", t_FC3_ClearPart);
   ("F17_ClearPart", t_F17_ClearPart);
   ("F21_ClearPart", t_F21_ClearPart);
   ("F28_ClearPart", t_F28_ClearPart);
   ("FC3_Device", t_FC3_Device);
   ("F24_Device", t_F24_Device);
   ("F34_Device", t_F34_Device);
   ("FC3_DeviceProbe", t_FC3_DeviceProbe);
   ("F29_DeviceProbe", t_F29_DeviceProbe);
   ("F34_DeviceProbe", t_F34_DeviceProbe);
   ("FC3_DisplayMode", t_FC3_DisplayMode);
   ("F26_DisplayMode", t_F26_DisplayMode);
   ("FC6_DmRaid", t_FC6_DmRaid);
   ("F24_DmRaid", t_F24_DmRaid);
   ("F34_DmRaid", t_F34_DmRaid);
   ("FC3_DriverDisk", t_FC3_DriverDisk);
   ("FC4_DriverDisk", t_FC4_DriverDisk);
   ("F12_DriverDisk", t_F12_DriverDisk);
   ("F14_DriverDisk", t_F14_DriverDisk);
   ("F20_Eula", t_F20_Eula);
   ("F12_Fcoe", t_F12_Fcoe);
   ("F13_Fcoe", t_F13_Fcoe);
   ("RHEL7_Fcoe", t_RHEL7_Fcoe);
   ("F28_Fcoe", t_F28_Fcoe);
   ("FC3_Firewall", t_FC3_Firewall);
   ("F9_Firewall", t_F9_Firewall);
   ("F10_Firewall", t_F10_Firewall);
   ("F14_Firewall", t_F14_Firewall);
   ("F20_Firewall", t_F20_Firewall);
   ("F28_Firewall", t_F28_Firewall);
   ("FC3_Firstboot", t_FC3_Firstboot);
   ("F12_Group", t_F12_Group);
   ("FC3_HardDrive", t_FC3_HardDrive);
   ("F33_HardDrive", t_F33_HardDrive);
   ("RHEL7_Hmc", t_RHEL7_Hmc);
   ("FC3_IgnoreDisk", t_FC3_IgnoreDisk);
   ("F8_IgnoreDisk", t_F8_IgnoreDisk);
   ("RHEL6_IgnoreDisk", t_RHEL6_IgnoreDisk);
   ("F29_IgnoreDisk", t_F29_IgnoreDisk);
   ("F34_IgnoreDisk", t_F34_IgnoreDisk);
   ("FC3_Upgrade", t_FC3_Upgrade);
   ("F11_Upgrade", t_F11_Upgrade);
   ("F20_Install", t_F20_Install);
   ("F29_Install", t_F29_Install);
   ("F34_Install", t_F34_Install);
   ("FC3_Interactive", t_FC3_Interactive);
   ("F14_Interactive", t_F14_Interactive);
   ("F15_Interactive", t_F15_Interactive);
   ("FC6_Iscsi", t_FC6_Iscsi);
   ("F10_Iscsi", t_F10_Iscsi);
   ("RHEL6_Iscsi", t_RHEL6_Iscsi);
   ("F17_Iscsi", t_F17_Iscsi);
   ("FC6_IscsiName", t_FC6_IscsiName);
   ("RHEL5_Key", t_RHEL5_Key);
   ("FC3_Keyboard", t_FC3_Keyboard);
   ("F18_Keyboard", t_F18_Keyboard);
   ("FC3_Lang", t_FC3_Lang);
   ("F19_Lang", t_F19_Lang);
   ("FC3_LangSupport", t_FC3_LangSupport);
   ("FC5_LangSupport", t_FC5_LangSupport);
   ("F7_LangSupport", t_F7_LangSupport);
   ("FC3_LiloCheck", t_FC3_LiloCheck);
   ("FC4_LiloCheck", t_FC4_LiloCheck);
   ("F19_Liveimg", t_F19_Liveimg);
   ("FC6_Logging", t_FC6_Logging);
   ("F34_Logging", t_F34_Logging);
   ("FC3_LogVol", t_FC3_LogVol);
   ("FC4_LogVol", t_FC4_LogVol);
   ("RHEL5_LogVol", t_RHEL5_LogVol);
   ("F9_LogVol", t_F9_LogVol);
   ("F12_LogVol", t_F12_LogVol);
   ("RHEL6_LogVol", t_RHEL6_LogVol);
   ("F14_LogVol", t_F14_LogVol);
   ("F15_LogVol", t_F15_LogVol);
   ("F17_LogVol", t_F17_LogVol);
   ("F18_LogVol", t_F18_LogVol);
   ("F20_LogVol", t_F20_LogVol);
   ("F21_LogVol", t_F21_LogVol);
   ("RHEL7_LogVol", t_RHEL7_LogVol);
   ("F23_LogVol", t_F23_LogVol);
   ("F29_LogVol", t_F29_LogVol);
   ("RHEL8_LogVol", t_RHEL8_LogVol);
   ("FC4_MediaCheck", t_FC4_MediaCheck);
   ("F29_Module", t_F29_Module);
   ("RHEL8_Module", t_RHEL8_Module);
   ("FC3_Monitor", t_FC3_Monitor);
   ("FC6_Monitor", t_FC6_Monitor);
   ("F10_Monitor", t_F10_Monitor);
   ("F18_Monitor", t_F18_Monitor);
   ("F27_Mount", t_F27_Mount);
   ("RHEL3_Mouse", t_RHEL3_Mouse);
   ("FC3_Mouse", t_FC3_Mouse);
   ("F7_Mouse", t_F7_Mouse);
   ("FC3_Network", t_FC3_Network);
   ("FC4_Network", t_FC4_Network);
   ("FC6_Network", t_FC6_Network);
   ("F8_Network", t_F8_Network);
   ("F9_Network", t_F9_Network);
   ("F16_Network", t_F16_Network);
   ("F19_Network", t_F19_Network);
   ("F20_Network", t_F20_Network);
   ("F21_Network", t_F21_Network);
   ("F22_Network", t_F22_Network);
   ("F25_Network", t_F25_Network);
   ("F27_Network", t_F27_Network);
   ("RHEL4_Network", t_RHEL4_Network);
   ("RHEL5_Network", t_RHEL5_Network);
   ("RHEL6_Network", t_RHEL6_Network);
   ("RHEL7_Network", t_RHEL7_Network);
   ("FC3_NFS", t_FC3_NFS);
   ("FC6_NFS", t_FC6_NFS);
   ("F28_Nvdimm", t_F28_Nvdimm);
   ("F21_OSTreeSetup", t_F21_OSTreeSetup);
   ("FC3_Partition", t_FC3_Partition);
   ("FC4_Partition", t_FC4_Partition);
   ("RHEL5_Partition", t_RHEL5_Partition);
   ("F9_Partition", t_F9_Partition);
   ("F11_Partition", t_F11_Partition);
   ("F12_Partition", t_F12_Partition);
   ("RHEL6_Partition", t_RHEL6_Partition);
   ("F14_Partition", t_F14_Partition);
   ("F17_Partition", t_F17_Partition);
   ("F18_Partition", t_F18_Partition);
   ("F23_Partition", t_F23_Partition);
   ("F29_Partition", t_F29_Partition);
   ("RHEL8_Partition", t_RHEL8_Partition);
   ("F34_Partition", t_F34_Partition);
   ("FC3_Raid", t_FC3_Raid);
   ("FC4_Raid", t_FC4_Raid);
   ("FC5_Raid", t_FC5_Raid);
   ("RHEL5_Raid", t_RHEL5_Raid);
   ("F7_Raid", t_F7_Raid);
   ("F9_Raid", t_F9_Raid);
   ("F12_Raid", t_F12_Raid);
   ("F13_Raid", t_F13_Raid);
   ("RHEL6_Raid", t_RHEL6_Raid);
   ("F14_Raid", t_F14_Raid);
   ("F15_Raid", t_F15_Raid);
   ("F18_Raid", t_F18_Raid);
   ("F23_Raid", t_F23_Raid);
   ("F25_Raid", t_F25_Raid);
   ("F29_Raid", t_F29_Raid);
   ("RHEL8_Raid", t_RHEL8_Raid);
   ("FC3_Reboot", t_FC3_Reboot);
   ("FC6_Reboot", t_FC6_Reboot);
   ("F18_Reboot", t_F18_Reboot);
   ("F23_Reboot", t_F23_Reboot);
   ("FC6_Repo", t_FC6_Repo);
   ("F8_Repo", t_F8_Repo);
   ("F11_Repo", t_F11_Repo);
   ("F13_Repo", t_F13_Repo);
   ("F14_Repo", t_F14_Repo);
   ("F15_Repo", t_F15_Repo);
   ("F21_Repo", t_F21_Repo);
   ("F27_Repo", t_F27_Repo);
   ("F30_Repo", t_F30_Repo);
   ("F33_Repo", t_F33_Repo);
   ("F23_ReqPart", t_F23_ReqPart);
   ("F10_Rescue", t_F10_Rescue);
   ("RHEL8_RHSM", t_RHEL8_RHSM);
   ("FC3_RootPw", t_FC3_RootPw);
   ("F8_RootPw", t_F8_RootPw);
   ("FC3_SELinux", t_FC3_SELinux);
   ("FC6_Services", t_FC6_Services);
   ("FC3_SkipX", t_FC3_SkipX);
   ("F26_Snapshot", t_F26_Snapshot);
   ("F22_SshKey", t_F22_SshKey);
   ("F13_SshPw", t_F13_SshPw);
   ("F24_SshPw", t_F24_SshPw);
   ("RHEL8_Syspurpose", t_RHEL8_Syspurpose);
   ("F33_Timesource", t_F33_Timesource);
   ("FC3_Timezone", t_FC3_Timezone);
   ("FC6_Timezone", t_FC6_Timezone);
   ("F18_Timezone", t_F18_Timezone);
   ("RHEL7_Timezone", t_RHEL7_Timezone);
   ("F25_Timezone", t_F25_Timezone);
   ("RHEL6_UnsupportedHardware", t_RHEL6_UnsupportedHardware);
   ("F7_Updates", t_F7_Updates);
   ("F34_Updates", t_F34_Updates);
   ("F20_Upgrade", t_F20_Upgrade);
   ("F29_Upgrade", t_F29_Upgrade);
   ("FC3_Url", t_FC3_Url);
   ("F13_Url", t_F13_Url);
   ("F14_Url", t_F14_Url);
   ("F18_Url", t_F18_Url);
   ("F27_Url", t_F27_Url);
   ("F30_Url", t_F30_Url);
   ("FC6_User", t_FC6_User);
   ("F8_User", t_F8_User);
   ("F12_User", t_F12_User);
   ("F19_User", t_F19_User);
   ("F24_User", t_F24_User);
   ("FC3_Vnc", t_FC3_Vnc);
   ("FC6_Vnc", t_FC6_Vnc);
   ("F9_Vnc", t_F9_Vnc);
   ("FC3_VolGroup", t_FC3_VolGroup);
   ("F16_VolGroup", t_F16_VolGroup);
   ("F21_VolGroup", t_F21_VolGroup);
   ("FC3_XConfig", t_FC3_XConfig);
   ("FC6_XConfig", t_FC6_XConfig);
   ("F9_XConfig", t_F9_XConfig);
   ("F10_XConfig", t_F10_XConfig);
   ("F14_XConfig", t_F14_XConfig);
   ("FC3_ZeroMbr", t_FC3_ZeroMbr);
   ("FC3_ZFCP", t_FC3_ZFCP);
   ("F12_ZFCP", t_F12_ZFCP);
   ("F14_ZFCP", t_F14_ZFCP);
   ("F32_Zipl", t_F32_Zipl)].
