-Q theories Verif
theories/Base.v
theories/Reader_Model.v
theories/Reader_Spec.v
theories/Reader_Proofs.v
theories/Reader_Proofs2.v
theories/Reader_Proofs3.v
theories/Properties_Reader.v
theories/Text_Model.v
theories/Text_Spec.v
theories/Text_Proofs.v
theories/Reader_Lines.v
theories/Text_Proofs2.v
theories/Text_Proofs3.v
theories/Properties_Text.v
theories/Api_Model.v
theories/Api_Spec.v
theories/Api_Proofs.v
theories/Api_Proofs2.v
theories/Api_Proofs3.v
theories/Api_Proofs4.v
theories/Api_Instruction.v
theories/Properties_Api.v
theories/Writer_Model.v
theories/Writer_Spec.v
theories/Writer_Proofs.v
theories/Writer_Proofs2.v
theories/Writer_Proofs3.v
theories/Writer_Proofs4.v
theories/Writer_Proofs5.v
theories/Writer_Proofs6.v
theories/Writer_Proofs7.v
theories/Writer_Proofs8.v
theories/Writer_Proofs9.v
theories/Writer_Proofs10.v
theories/Writer_Tags.v
theories/Properties_Writer.v
theories/Archive_Model.v
theories/Archive_Spec.v
theories/Archive_Proofs.v
theories/Archive_Proofs2.v
theories/Archive_Proofs3.v
theories/Archive_Proofs4.v
theories/Properties_Archive.v
theories/Parser_Model.v
theories/Parser_Spec.v
theories/Parser_Proofs.v
theories/Parser_Proofs2.v
theories/Parser_Proofs3.v
theories/Parser_View.v
theories/Parser_View2.v
theories/Parser_View3.v
theories/Parser_View4.v
theories/Parser_View5.v
theories/Parser_View6.v
theories/Parser_Modes.v
theories/Parser_Modes2.v
theories/Parser_Guess.v
theories/Properties_Parser.v
theories/Queue_Model.v
theories/Queue_Spec.v
theories/Queue_Proofs.v
theories/Queue_Proofs2.v
theories/Queue_Proofs3.v
theories/Limiter_Model.v
theories/Limiter_Spec.v
theories/Limiter_Proofs.v
theories/Properties_Client.v
theories/Handoff_Model.v
theories/Handoff_Spec.v
theories/Handoff_Proofs.v
theories/Handoff_Proofs2.v
theories/Handoff_Proofs3.v
theories/Sax_Model.v
theories/Sax_Spec.v
theories/Sax_Proofs.v
theories/Sax_Proofs2.v
theories/Sax_Proofs3.v
theories/Sax_Proofs4.v
theories/Sax_Proofs5.v
theories/Sax_Proofs6.v
theories/Stream_Spec.v
theories/Sax_Proofs7.v
theories/Properties_Stream.v
theories/Input_Model.v
theories/Input_Spec.v
theories/Input_Proofs.v
theories/Input_Proofs2.v
theories/Input_Proofs3.v
theories/Input_Proofs4.v
theories/Properties_Input.v
theories/Pretty_Model.v
theories/Pretty_Spec.v
theories/Pretty_Proofs.v
theories/Pretty_Proofs2.v
theories/Pretty_Proofs3.v
theories/Properties_Pretty.v
theories/Root_Model.v
theories/Root_Spec.v
theories/Root_Proofs.v
theories/Root_Proofs2.v
theories/Root_Proofs3.v
theories/Root_Proofs4.v
theories/Root_Proofs5.v
theories/Root_Proofs6.v
theories/Root_Proofs7.v
theories/Root_Proofs8.v
theories/Root_AnySpec.v
theories/Root_Any.v
theories/Root_Atoi.v
theories/Properties_Root.v
theories/Declared_Spec.v
theories/Archive_Declared.v
theories/Properties_Declared.v
theories/Scope_Spec.v
theories/Parser_Scope.v
theories/Properties_Scope.v
theories/Source_Model.v
theories/Source_Spec.v
theories/Source_Proofs.v
theories/Source_Proofs2.v
theories/Source_Proofs3.v
theories/Source_Proofs4.v
theories/Source_Elements.v
theories/Source_Tokens.v
theories/Source_Whole.v
theories/Source_Examples.v
theories/Properties_Source.v
theories/Reuse_Model.v
theories/Reuse_Spec.v
theories/Reuse_Proofs.v
theories/Reuse_Proofs2.v
theories/Reuse_Examples.v
theories/Reuse_Hash.v
theories/Properties_Reuse.v
theories/Thread_Model.v
theories/Thread_Spec.v
theories/Thread_Proofs.v
theories/Properties_Thread.v
theories/Shared_Model.v
theories/Shared_Spec.v
theories/Shared_Proofs.v
theories/Properties_Shared.v
theories/Lexer_Model.v
theories/Lexer_Spec.v
theories/Lexer_Proofs.v
theories/Lexer_Proofs2.v
theories/Lexer_Proofs3.v
theories/Lexer_Proofs4.v
theories/Lexer_Proofs5.v
theories/Lexer_Proofs6.v
theories/Lexer_Proofs7.v
theories/Lexer_Proofs8.v
theories/Lexer_Proofs9.v
theories/Lexer_Comments.v
theories/Lexer_Raw.v
theories/Lexer_Raw2.v
theories/Lexer_Words.v
theories/Lexer_Examples.v
theories/Properties_Lexer.v
theories/Transform_Model.v
theories/Transform_Spec.v
theories/Transform_Trees.v
theories/Transform_Marks.v
theories/Transform_Heap.v
theories/Transform_Chain.v
theories/Transform_Results.v
theories/Transform_Units.v
theories/Transform_Whole.v
theories/Transform_Rest.v
theories/Transform_Calls.v
theories/Transform_Examples.v
theories/Transform_Root.v
theories/Properties_Transform.v
theories/Cond_Model.v
theories/Cond_Spec.v
theories/Cond_Proofs.v
theories/Cond_Proofs2.v
theories/Cond_Examples.v
theories/Properties_Cond.v
theories/Steps_Model.v
theories/Steps_Spec.v
theories/Steps_Proofs.v
theories/Steps_Examples.v
theories/Properties_Steps.v
theories/Extract_Model.v
theories/Extract_Spec.v
theories/Extract_Proofs.v
theories/Extract_Examples.v
theories/Properties_Extract.v
theories/Create_Model.v
theories/Create_Spec.v
theories/Create_Proofs.v
theories/Create_Proofs2.v
theories/Create_Proofs3.v
theories/Create_Proofs4.v
theories/Create_Proofs5.v
theories/Create_Proofs6.v
theories/Create_Examples.v
theories/Properties_Create.v
theories/Whole_Tags.v
theories/Whole_Names.v
theories/Whole_Spec.v
theories/Whole_Reads.v
theories/Whole_Unit.v
theories/Whole_Archive.v
theories/Whole_Lone.v
theories/Whole_Examples.v
theories/Whole_Refuted.v
theories/Properties_Whole.v
theories/Back_Spec.v
theories/Back_Reads.v
theories/Back_Invert.v
theories/Back_Attrs.v
theories/Back_Unit.v
theories/Back_Archive.v
theories/Back_Exists.v
theories/Back_Solo.v
theories/Back_Examples.v
theories/Properties_Back.v
theories/Global_Model.v
theories/Global_Spec.v
theories/Global_Settings.v
theories/Global_Direction.v
theories/Global_Source.v
theories/Global_Parsed.v
theories/Global_Same.v
theories/Global_Written.v
theories/Global_Round.v
theories/Global_Examples.v
theories/Properties_Global.v
theories/Places_Model.v
theories/Places_Spec.v
theories/Places_Proofs.v
theories/Places_Proofs2.v
theories/Places_Proofs3.v
theories/Places_Proofs4.v
theories/Places_Proofs5.v
theories/Places_Proofs6.v
theories/Properties_Places.v
theories/Todir_Model.v
theories/Todir_Spec.v
theories/Todir_Proofs.v
theories/Todir_Proofs2.v
theories/Archive_Nowhere.v
theories/Todir_Proofs3.v
theories/Todir_Examples.v
theories/Properties_Todir.v
theories/Download_Model.v
theories/Download_Spec.v
theories/Download_Proofs.v
theories/Download_Proofs2.v
theories/Download_Proofs3.v
theories/Download_Examples.v
theories/Properties_Download.v
theories/Ptest_Model.v
theories/Ptest_Spec.v
theories/Ptest_Format.v
theories/Ptest_Proofs.v
theories/Ptest_Proofs2.v
theories/Ptest_Proofs3.v
theories/Ptest_Proofs4.v
theories/Ptest_Examples.v
theories/Properties_Ptest.v
theories/Cat_Model.v
theories/Cat_Spec.v
theories/Cat_Proofs.v
theories/Cat_Proofs2.v
theories/Cat_Examples.v
theories/Properties_Cat.v
theories/Trace_Model.v
theories/Trace_Spec.v
theories/Trace_Proofs.v
theories/Properties_Trace.v
