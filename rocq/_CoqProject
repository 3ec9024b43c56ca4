-Q theories Verif
theories/Base.v
theories/BaseFacts.v
theories/Raid.v
theories/SpecRaid.v
theories/RaidFacts.v
theories/SpecParity.v
theories/ParityFacts.v
theories/PropsRaid.v
theories/Io.v
theories/SpecStream.v
theories/IoFacts.v
theories/PropsIo.v
theories/Superblock.v
theories/Device.v
theories/Array.v
theories/SpecMd.v
theories/SuperblockFacts.v
theories/PropsSuperblock.v
theories/SpecDevice.v
theories/PropsDevice.v
theories/SpecArray.v
theories/ArrayFacts.v
theories/PropsArray.v
theories/PropsArrayRead.v
theories/Crc.v
theories/SpecCrc.v
theories/CrcFacts.v
theories/CrcPoly.v
theories/PropsCrc.v
theories/Ext4Superblock.v
theories/SpecExt4.v
theories/TestData.v
theories/PropsExt4Superblock.v
theories/Ext4Inode.v
theories/SpecExt4Inode.v
theories/PropsExt4Inode.v
theories/Ext4Fs.v
theories/SpecExt4Fs.v
theories/Ext4FsFacts.v
theories/PropsExt4Fs.v
theories/Ext4Extent.v
theories/Ext4File.v
theories/SpecExt4File.v
theories/Ext4FileFacts.v
theories/PropsExt4File.v
theories/Ext4String.v
theories/Ext4Dir.v
theories/SpecExt4Dir.v
theories/PropsExt4Dir.v
theories/PropsExt4Listing.v
theories/SpecExt4String.v
theories/PropsExt4String.v
theories/PropsExt4Flat.v
theories/PropsExt4Array.v
theories/SpecExt4Open.v
theories/PropsExt4Open.v
theories/ArrayIo.v
theories/PropsArrayIo.v
theories/PropsExt4Recover.v
theories/Main.v
theories/PropsMain.v
theories/SpecExt4Linux.v
theories/PropsExt4Linux.v
theories/SpecExt4Walk.v
theories/PropsExt4Walk.v
theories/PropsExt4Turns.v
theories/SpecExt4Content.v
theories/PropsExt4Content.v
theories/SpecExt4LinuxDir.v
theories/PropsExt4LinuxDir.v
theories/Release.v
theories/PropsRelease.v
theories/SpecExt4Checksum.v
theories/PropsExt4Checksum.v
theories/Text.v
theories/SpecText.v
theories/TextFacts.v
theories/PropsText.v
theories/SpecExt4Frame.v
theories/PropsExt4Frame.v
theories/SpecExt4Features.v
theories/PropsExt4Features.v
theories/SpecDamage.v
theories/PropsExt4Damage.v
theories/SpecStale.v
theories/PropsArrayStale.v
theories/SpecReshape.v
theories/PropsArrayReshape.v
theories/PropsArrayRebuild.v
theories/SpecMd90.v
theories/PropsSuperblock0.v
theories/SpecMembers.v
theories/PropsMembers.v
theories/PropsPaths.v
theories/PropsPathsWrong.v
theories/PropsExt4DirTurns.v
theories/PropsExt4Shared.v
theories/PropsOffset.v
theories/Interrupt.v
theories/PropsInterrupt.v
theories/ReadAll.v
theories/PropsReadAll.v
theories/TestImages.v
theories/Flags.v
theories/SpecFlags.v
theories/PropsFlags.v
theories/RepoTests.v
theories/InterruptMain.v
theories/PropsCalmPaths.v
theories/Display.v
theories/PropsDisplay.v
theories/Ioctl.v
theories/PropsIoctl.v
theories/PropsDescriptors.v
theories/Options.v
theories/PropsOptions.v
theories/PropsRoles.v
theories/Superblock0.v
theories/PropsMore.v
theories/PropsPhysical.v
theories/PropsNodes.v
theories/PropsReaderBlock.v
theories/PropsRoot.v
