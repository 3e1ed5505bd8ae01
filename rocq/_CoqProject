-Q theories Verif
theories/Model_Base.v
theories/Model_Version.v
theories/Model_Tokenizer.v
theories/Model_CacheEntry.v
theories/Proof_Base.v
theories/Spec_CacheEntry.v
theories/Proof_CacheEntry.v
theories/Spec_Version.v
theories/Proof_Version.v
theories/Prop_Version.v
theories/Spec_Tokenizer.v
theories/Proof_Tokenizer.v
theories/Spec_Layout.v
theories/Proof_Layout.v
theories/Prop_CacheEntry.v
theories/Prop_Tokenizer.v
theories/Model_Cache.v
theories/Spec_Cache.v
theories/Proof_Cache.v
theories/Prop_Cache.v
theories/Spec_OneKey.v
theories/Proof_OneKey.v
theories/Prop_OneKey.v
theories/Model_Ctx.v
theories/Model_Parse.v
theories/Spec_Getters.v
theories/Proof_Local.v
theories/Proof_Safe.v
theories/Proof_Getters.v
theories/Proof_Private.v
theories/Model_Blob.v
theories/Model_Regex.v
theories/Data_Client.v
theories/Data_OS.v
theories/Data_Device.v
theories/Data_Model.v
theories/Data_DeviceRe0.v
theories/Data_DeviceRe1.v
theories/Model_Shipped.v
theories/Proof_Regex.v
theories/Proof_Repeat.v
theories/Prop_Getters.v
theories/Spec_Select.v
theories/Proof_Select.v
theories/Proof_Client.v
theories/Proof_OS.v
theories/Proof_Device.v
theories/Proof_Tables.v
theories/Proof_Blind.v
theories/Proof_Choice.v
theories/Prop_Client.v
theories/Proof_Reports.v
theories/Prop_OS.v
theories/Prop_Device.v
theories/Prop_Pool.v
theories/Spec_Panic.v
theories/Proof_Panic.v
theories/Proof_Sets.v
theories/Proof_PanicClient.v
theories/Proof_Fine.v
theories/Proof_Parses.v
theories/Prop_Panic.v
theories/Spec_Collide.v
theories/Proof_Collide.v
theories/Prop_Collide.v
theories/Model_Compiler.v
theories/Spec_Compiler.v
theories/Proof_Compiler.v
theories/Prop_Compiler.v
theories/Model_Built.v
theories/Spec_Database.v
theories/Data_Tiny.v
theories/Proof_Built.v
theories/Proof_DbClient.v
theories/Proof_DbOS.v
theories/Proof_DbDevice.v
theories/Proof_DbVendor.v
theories/Proof_DbTiny.v
theories/Proof_Database.v
theories/Prop_Database.v
theories/Spec_Again.v
theories/Proof_Again.v
theories/Proof_Quirks.v
theories/Prop_Quirks.v
theories/Model_Cli.v
theories/Spec_Cli.v
theories/Proof_Cli.v
theories/Prop_Cli.v
theories/Model_Memory.v
theories/Spec_Memory.v
theories/Proof_Memory.v
theories/Prop_Memory.v
theories/Spec_Regex.v
theories/Proof_Pattern.v
theories/Prop_Regex.v
theories/Spec_Structured.v
theories/Proof_Structured.v
theories/Prop_Structured.v
theories/Spec_Case.v
theories/Proof_Case.v
theories/Proof_Letters.v
theories/Proof_LettersVersion.v
theories/Proof_Spelling.v
theories/Prop_Case.v
theories/Spec_Honest.v
theories/Proof_Honest.v
theories/Prop_Honest.v
theories/Spec_Word.v
theories/Proof_Word.v
theories/Proof_WordBuilt.v
theories/Proof_WordShipped.v
theories/Prop_Word.v
theories/Data_TinyBroken.v
theories/Model_Single.v
theories/Spec_Single.v
theories/Proof_Single.v
theories/Prop_Single.v
theories/Spec_DbPanic.v
theories/Proof_DbPanic.v
theories/Proof_DbPanicTiny.v
theories/Prop_DbPanic.v
theories/Model_Threads.v
theories/Spec_Race.v
theories/Proof_Race.v
theories/Proof_Atomic.v
theories/Proof_Finish.v
theories/Prop_Race.v
theories/Spec_Traffic.v
theories/Proof_Traffic.v
theories/Prop_Traffic.v
theories/Spec_Order.v
theories/Proof_Order.v
theories/Prop_Order.v
theories/Model_Emit.v
theories/Spec_Go.v
theories/Proof_Emit.v
theories/Spec_Emit.v
theories/Proof_Writable.v
theories/Proof_Written.v
theories/Prop_Emit.v
theories/Spec_Starts.v
theories/Proof_Starts.v
theories/Proof_StartsShipped.v
theories/Prop_Starts.v
theories/Spec_Narrow.v
theories/Proof_Narrow.v
theories/Prop_Narrow.v
theories/Model_Batch.v
theories/Spec_Batch.v
theories/Proof_Batch.v
theories/Prop_Batch.v
theories/Spec_Depends.v
theories/Proof_Depends.v
theories/Prop_Depends.v
theories/Spec_Agree.v
theories/Proof_Agree.v
theories/Proof_AgreeTiny.v
theories/Prop_Agree.v
theories/Proof_Group.v
theories/Proof_Known.v
theories/Proof_KnownShipped.v
theories/Prop_Known.v
theories/Spec_Syntax.v
theories/Proof_Syntax.v
theories/Proof_SyntaxShipped.v
theories/Prop_Syntax.v
theories/Spec_Widen.v
theories/Proof_Widen.v
theories/Proof_WidenCase.v
theories/Prop_Widen.v
theories/Model_Stale.v
theories/Spec_Stale.v
theories/Proof_Stale.v
theories/Proof_StaleShipped.v
theories/Prop_Stale.v
theories/Spec_Upgrade.v
theories/Proof_Upgrade.v
theories/Proof_UpgradeCase.v
theories/Prop_Upgrade.v
theories/Spec_Damage.v
theories/Proof_Damage.v
theories/Prop_Damage.v
theories/Model_Share.v
theories/Spec_Share.v
theories/Proof_Share.v
theories/Prop_Share.v
theories/Spec_Size.v
theories/Proof_Size.v
theories/Prop_Size.v
theories/Model_Uaxplc.v
theories/Spec_Uaxplc.v
theories/Proof_Uaxplc.v
theories/Prop_Uaxplc.v
theories/Model_Main.v
theories/Proof_Main.v
theories/Prop_Main.v
theories/Model_Readers.v
theories/Spec_Readers.v
theories/Proof_Readers.v
theories/Proof_Settled.v
theories/Prop_Readers.v
theories/Spec_Dead.v
theories/Proof_Covers.v
theories/Proof_Quick.v
theories/Proof_Dead.v
theories/Proof_Shadow.v
theories/Proof_Index.v
theories/Data_Witness.v
theories/Proof_Entries.v
theories/Proof_EntriesDev.v
theories/Proof_Live.v
theories/Prop_Dead.v
theories/Spec_Android.v
theories/Proof_Android.v
theories/Proof_AndroidDb.v
theories/Prop_Android.v
theories/Spec_Inside.v
theories/Proof_Inside.v
theories/Prop_Inside.v
theories/Spec_Strip.v
theories/Proof_Strip.v
theories/Prop_Strip.v
theories/Model_Command.v
theories/Spec_Command.v
theories/Proof_Command.v
theories/Prop_Command.v
theories/Spec_Threshold.v
theories/Proof_Threshold.v
theories/Prop_Threshold.v
theories/Spec_OsInside.v
theories/Proof_OsInside.v
theories/Prop_OsInside.v
theories/Spec_Session.v
theories/Proof_Session.v
theories/Prop_Session.v
theories/Spec_Bare.v
theories/Proof_Bare.v
theories/Prop_Bare.v
theories/Spec_Charset.v
theories/Proof_Charset.v
theories/Prop_Charset.v
theories/Proof_Markup.v
theories/Prop_Markup.v
theories/Spec_Family.v
theories/Proof_Family.v
theories/Proof_Tail.v
theories/Proof_Desktop.v
theories/Proof_DesktopBrowser.v
theories/Proof_DesktopSystem.v
theories/Proof_DesktopShipped.v
theories/Prop_Family.v
theories/Proof_DesktopDevice.v
theories/Prop_Desktop.v
theories/Proof_DesktopEngine.v
theories/Prop_DesktopEngine.v
theories/Spec_Ios.v
theories/Proof_Ios.v
theories/Prop_Ios.v
theories/Spec_Phone.v
theories/Proof_Phone.v
theories/Prop_Phone.v
theories/Spec_Library.v
theories/Proof_Library.v
theories/Prop_Library.v
theories/Spec_Iphone.v
theories/Proof_Iphone.v
theories/Prop_Iphone.v
theories/Spec_Priority.v
theories/Proof_Priority.v
theories/Prop_Priority.v
theories/Spec_IphoneOther.v
theories/Proof_IphoneOther.v
theories/Prop_IphoneOther.v
theories/Spec_Derived.v
theories/Proof_Derived.v
theories/Prop_Derived.v
theories/Spec_Reference.v
theories/Proof_Reference.v
theories/Prop_Reference.v
theories/Spec_GroupRead.v
theories/Proof_GroupRead.v
theories/Prop_GroupRead.v
theories/Spec_SystemRead.v
theories/Proof_SystemRead.v
theories/Prop_SystemRead.v
