Base
Reader_Model
Reader_Spec
Reader_Proofs
Reader_Proofs2
Reader_Proofs3
Properties_Reader
Text_Model
Text_Spec
Text_Proofs
Reader_Lines
Text_Proofs2
Text_Proofs3
Properties_Text
Api_Model
Api_Spec
Api_Proofs
Api_Proofs2
Api_Proofs3
Api_Proofs4
Api_Instruction
Properties_Api
Writer_Model
Writer_Spec
Writer_Proofs
Writer_Proofs2
Writer_Proofs3
Writer_Proofs4
Writer_Proofs5
Writer_Proofs6
Writer_Proofs7
Writer_Proofs8
Writer_Proofs9
Writer_Proofs10
Writer_Tags
Properties_Writer
Archive_Model
Archive_Spec
Archive_Proofs
Archive_Proofs2
Archive_Proofs3
Archive_Proofs4
Properties_Archive
Parser_Model
Parser_Spec
Parser_Proofs
Parser_Proofs2
Parser_Proofs3
Parser_View
Parser_View2
Parser_View3
Parser_View4
Parser_View5
Parser_View6
Parser_Modes
Parser_Modes2
Parser_Guess
Properties_Parser
Queue_Model
Queue_Spec
Queue_Proofs
Queue_Proofs2
Queue_Proofs3
Limiter_Model
Limiter_Spec
Limiter_Proofs
Properties_Client
Handoff_Model
Handoff_Spec
Handoff_Proofs
Handoff_Proofs2
Handoff_Proofs3
Sax_Model
Sax_Spec
Sax_Proofs
Sax_Proofs2
Sax_Proofs3
Sax_Proofs4
Sax_Proofs5
Sax_Proofs6
Stream_Spec
Sax_Proofs7
Properties_Stream
Input_Model
Input_Spec
Input_Proofs
Input_Proofs2
Input_Proofs3
Input_Proofs4
Properties_Input
Pretty_Model
Pretty_Spec
Pretty_Proofs
Pretty_Proofs2
Pretty_Proofs3
Properties_Pretty
Root_Model
Root_Spec
Root_Proofs
Root_Proofs2
Root_Proofs3
Root_Proofs4
Root_Proofs5
Root_Proofs6
Root_Proofs7
Root_Proofs8
Root_AnySpec
Root_Any
Root_Atoi
Properties_Root
Declared_Spec
Archive_Declared
Properties_Declared
Scope_Spec
Parser_Scope
Properties_Scope
Source_Model
Source_Spec
Source_Proofs
Source_Proofs2
Source_Proofs3
Source_Proofs4
Source_Elements
Source_Tokens
Source_Whole
Source_Examples
Properties_Source
Reuse_Model
Reuse_Spec
Reuse_Proofs
Reuse_Proofs2
Reuse_Examples
Reuse_Hash
Properties_Reuse
Thread_Model
Thread_Spec
Thread_Proofs
Properties_Thread
Shared_Model
Shared_Spec
Shared_Proofs
Properties_Shared
Lexer_Model
Lexer_Spec
Lexer_Proofs
Lexer_Proofs2
Lexer_Proofs3
Lexer_Proofs4
Lexer_Proofs5
Lexer_Proofs6
Lexer_Proofs7
Lexer_Proofs8
Lexer_Proofs9
Lexer_Comments
Lexer_Raw
Lexer_Raw2
Lexer_Words
Lexer_Examples
Properties_Lexer
Transform_Model
Transform_Spec
Transform_Trees
Transform_Marks
Transform_Heap
Transform_Chain
Transform_Results
Transform_Units
Transform_Whole
Transform_Rest
Transform_Calls
Transform_Examples
Transform_Root
Properties_Transform
Cond_Model
Cond_Spec
Cond_Proofs
Cond_Proofs2
Cond_Examples
Properties_Cond
Steps_Model
Steps_Spec
Steps_Proofs
Steps_Examples
Properties_Steps
Extract_Model
Extract_Spec
Extract_Proofs
Extract_Examples
Properties_Extract
Create_Model
Create_Spec
Create_Proofs
Create_Proofs2
Create_Proofs3
Create_Proofs4
Create_Proofs5
Create_Proofs6
Create_Examples
Properties_Create
Whole_Tags
Whole_Names
Whole_Spec
Whole_Reads
Whole_Unit
Whole_Archive
Whole_Lone
Whole_Examples
Whole_Refuted
Properties_Whole
Back_Spec
Back_Reads
Back_Invert
Back_Attrs
Back_Unit
Back_Archive
Back_Exists
Back_Solo
Back_Examples
Properties_Back
Global_Model
Global_Spec
Global_Settings
Global_Direction
Global_Source
Global_Parsed
Global_Same
Global_Written
Global_Round
Global_Examples
Properties_Global
Places_Model
Places_Spec
Places_Proofs
Places_Proofs2
Places_Proofs3
Places_Proofs4
Places_Proofs5
Places_Proofs6
Properties_Places
Todir_Model
Todir_Spec
Todir_Proofs
Todir_Proofs2
Archive_Nowhere
Todir_Proofs3
Todir_Examples
Properties_Todir
Download_Model
Download_Spec
Download_Proofs
Download_Proofs2
Download_Proofs3
Download_Examples
Properties_Download
Ptest_Model
Ptest_Spec
Ptest_Format
Ptest_Proofs
Ptest_Proofs2
Ptest_Proofs3
Ptest_Proofs4
Ptest_Examples
Properties_Ptest
Cat_Model
Cat_Spec
Cat_Proofs
Cat_Proofs2
Cat_Examples
Properties_Cat
Trace_Model
Trace_Spec
Trace_Proofs
Properties_Trace
