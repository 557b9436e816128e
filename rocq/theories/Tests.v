(** Generated by tools/gen_tests.py from ast/ast_test.go: the expectations of the
    project's own tests, evaluated on the model.  This validates the model; it
    is not part of any proof. *)
From Verif Require Import Bytes Utf8 Float64 GoTime Ast Lexer Parser Printer TestLib.

Example t1_a : no_err
  (B "Процедура dsds() d = 864/63+607-177*906*27>737*429+84-270 КонецПроцедуры") = true.
Proof. vm_compute. reflexivity. Qed.
Example t1_b : prints (Conf 0 true) trim (B "Процедура dsds() d = (((864 / 63) + 607) - ((177 * 906) * 27)) > (((737 * 429) + 84) - 270);КонецПроцедуры")
  (B "Процедура dsds() d = 864/63+607-177*906*27>737*429+84-270 КонецПроцедуры") = true.
Proof. vm_compute. reflexivity. Qed.
Example t2_a : no_err
  (B "
		// @strict-types
		
		
		#Если Сервер Или ТолстыйКлиентОбычноеПриложение Или ВнешнееСоединение Тогда
		
		#Область ОписаниеПеременных
		
		#КонецОбласти
		
		#Область ПрограммныйИнтерфейс
		
		// Код процедур и функций
		
		#КонецОбласти
		
		#Область ОбработчикиСобытий
		
		// Код процедур и функций
		
		#КонецОбласти
		
		#Область СлужебныйПрограммныйИнтерфейс
		
		// Код процедур и функций
		
		#КонецОбласти
		
		#Область СлужебныеПроцедурыИФункции
		
		// Код процедур и функций
		
		#КонецОбласти
		
		#Область Инициализация
		
		#КонецОбласти
		
		#КонецЕсли
		
		") = true.
Proof. vm_compute. reflexivity. Qed.
Example t3_a : no_err
  (B "// См. УправлениеДоступомПереопределяемый.ПриЗаполненииСписковСОграничениемДоступа.
Процедура ПриЗаполненииОграниченияДоступа(Ограничение) Экспорт
//{{MRG[ <-> ]
//
//}}MRG[ <-> ]
	Ограничение.Текст = 
	""РазрешитьЧтениеИзменение
	|ГДЕ
//{{MRG[ <-> ]
	|	ЗначениеРазрешено(Организация)
	|	И ЗначениеРазрешено(ФизическоеЛицо)"";
//}}MRG[ <-> ]
//{{MRG[ <-> ]
//	|	ЗначениеРазрешено(Организация)"";
//
//}}MRG[ <-> ]
КонецПроцедуры") = true.
Proof. vm_compute. reflexivity. Qed.
Example t3_b : prints (Conf 0 true) trim (B "Процедура ПриЗаполненииОграниченияДоступа(Ограничение) Экспорт Ограничение.Текст = ""РазрешитьЧтениеИзменение
|ГДЕ
|	ЗначениеРазрешено(Организация)
|	И ЗначениеРазрешено(ФизическоеЛицо)"";КонецПроцедуры")
  (B "// См. УправлениеДоступомПереопределяемый.ПриЗаполненииСписковСОграничениемДоступа.
Процедура ПриЗаполненииОграниченияДоступа(Ограничение) Экспорт
//{{MRG[ <-> ]
//
//}}MRG[ <-> ]
	Ограничение.Текст = 
	""РазрешитьЧтениеИзменение
	|ГДЕ
//{{MRG[ <-> ]
	|	ЗначениеРазрешено(Организация)
	|	И ЗначениеРазрешено(ФизическоеЛицо)"";
//}}MRG[ <-> ]
//{{MRG[ <-> ]
//	|	ЗначениеРазрешено(Организация)"";
//
//}}MRG[ <-> ]
КонецПроцедуры") = true.
Proof. vm_compute. reflexivity. Qed.
Example t4_a : no_err
  (B "a = ""rererer // rererer""") = true.
Proof. vm_compute. reflexivity. Qed.
Example t4_b : prints (Conf 0 true) trim (B "a = ""rererer // rererer"";")
  (B "a = ""rererer // rererer""") = true.
Proof. vm_compute. reflexivity. Qed.
Example t5_a : no_err
  (B "a = ""rererer 
| rererer
// rererer
| rererer""") = true.
Proof. vm_compute. reflexivity. Qed.
Example t5_b : prints (Conf 0 true) trim (B "a = ""rererer 
| rererer
| rererer"";")
  (B "a = ""rererer 
| rererer
// rererer
| rererer""") = true.
Proof. vm_compute. reflexivity. Qed.
Example t6_a : no_err
  (B "a = ""rererer 
						| rererer
						// rererer
						| rererer""") = true.
Proof. vm_compute. reflexivity. Qed.
Example t6_b : prints (Conf 0 true) trim (B "a = ""rererer 
| rererer
| rererer"";")
  (B "a = ""rererer 
						| rererer
						// rererer
						| rererer""") = true.
Proof. vm_compute. reflexivity. Qed.
Example t7_a : no_err
  (B "a = ""rererer""+ 
						""rererer"" + ""rererer"";") = true.
Proof. vm_compute. reflexivity. Qed.
Example t7_b : prints (Conf 0 true) trim (B "a = (""rererer"" + ""rererer"") + ""rererer"";")
  (B "a = ""rererer""+ 
						""rererer"" + ""rererer"";") = true.
Proof. vm_compute. reflexivity. Qed.
Example t8_a : no_err
  (B "a = ""123_""
					""123_"" 
""123"";") = true.
Proof. vm_compute. reflexivity. Qed.
Example t8_b : prints (Conf 0 true) trim (B "a = ""123_123_123"";")
  (B "a = ""123_""
					""123_"" 
""123"";") = true.
Proof. vm_compute. reflexivity. Qed.
Example t9_a : no_err
  (B "") = true.
Proof. vm_compute. reflexivity. Qed.
Example t10_a : no_err
  (B "&НаСервере
				Перем в, e;

				&НаКлиенте 
				Перем а Экспорт; Перем с;

				Процедура вв1()
				
				Конецпроцедуры
				
				&НаКлиенте
				Процедура вв2()

				Конецпроцедуры") = true.
Proof. vm_compute. reflexivity. Qed.
Example t11_a : err_contains (B "variable has already been defined")
  (B "Перем а;
				Перем а;
				
				Процедура вв()
				
				Конецпроцедуры") = true.
Proof. vm_compute. reflexivity. Qed.
Example t12_a : err_contains (B "variable declarations must be placed at the beginning of the module")
  (B "Перем в; 

				Процедура вв()
					
				Конецпроцедуры
				Перем а;") = true.
Proof. vm_compute. reflexivity. Qed.
Example t13_a : no_err
  (B "
					Пока Истина Цикл
						
					КонецЦикла;
					
					
					ВызватьИсключение """";
					
					Если Истина Тогда
						а = 0;
					КонецЕсли") = true.
Proof. vm_compute. reflexivity. Qed.
Example t14_a : no_err
  (B "Перем в; 
					Функция test1() 
					КонецФункции

Функция test1() 
					КонецФункции

					Пока Истина Цикл
						
					КонецЦикла;
					
					
					ВызватьИсключение """";
					
					Если Истина Тогда
						а = 0;
					КонецЕсли;") = true.
Proof. vm_compute. reflexivity. Qed.
Example t15_a : err_some
  (B "
					Пока Истина Цикл
						
					КонецЦикла;
					
					
					ВызватьИсключение """";
					
					Если Истина Тогда
						а = 0;
					КонецЕсли;

					Процедура test()
					КонецПроцедуры") = true.
Proof. vm_compute. reflexivity. Qed.
Example t16_a : no_err
  (B "&НаСервере
					Процедура ВыполнитьВБезопасномРежиме(Знач Алгоритм, Знач Параметры = Неопределено)
						Выполнить Алгоритм;
					КонецПроцедуры") = true.
Proof. vm_compute. reflexivity. Qed.
Example t17_a : no_err
  (B "&НаСервере
					Процедура ВыполнитьВБезопасномРежиме(Знач Алгоритм, Знач Параметры = Неопределено)
						Выполнить(Алгоритм);
					КонецПроцедуры") = true.
Proof. vm_compute. reflexivity. Qed.
Example t17_b : same_hash (Conf 4 false)
  (B "&НаСервере
					Процедура ВыполнитьВБезопасномРежиме(Знач Алгоритм, Знач Параметры = Неопределено)
						Выполнить(Алгоритм);
					КонецПроцедуры") = true.
Proof. vm_compute. reflexivity. Qed.
Example t18_a : no_err
  (B "&НаСервере
					Процедура ВыполнитьВБезопасномРежиме(Знач Алгоритм, Знач Параметры = Неопределено)
						Выполнить ""Алгоритм"";
					КонецПроцедуры") = true.
Proof. vm_compute. reflexivity. Qed.
Example t19_a : err_is (B "syntax error. line: 3, column: 16 (unexpected literal: ""32"")")
  (B "&НаСервере
					Процедура ВыполнитьВБезопасномРежиме(Знач Алгоритм, Знач Параметры = Неопределено)
						Выполнить 32;
					КонецПроцедуры") = true.
Proof. vm_compute. reflexivity. Qed.
Example t20_a : err_is (B "syntax error. line: 3, column: 26 (unexpected literal: "","")")
  (B "&НаСервере
					Процедура ВыполнитьВБезопасномРежиме(Знач Алгоритм, Знач Параметры = Неопределено)
						Выполнить ""Алгоритм"", """";
					КонецПроцедуры") = true.
Proof. vm_compute. reflexivity. Qed.
Example t21_a : err_is (B "syntax error. line: 3, column: 27 (unexpected literal: "","")")
  (B "&НаСервере
					Процедура ВыполнитьВБезопасномРежиме(Знач Алгоритм, Знач Параметры = Неопределено)
						Выполнить (""Алгоритм"", """");
					КонецПроцедуры") = true.
Proof. vm_compute. reflexivity. Qed.
Example t22_a : no_err
  (B "&НаСервере
					Процедура ВыполнитьВБезопасномРежиме(Знач Алгоритм, Знач Параметры = Неопределено)
						в = Вычислить(Алгоритм);
					КонецПроцедуры") = true.
Proof. vm_compute. reflexivity. Qed.
Example t23_a : err_is (B "syntax error. line: 3, column: 16 (unexpected literal: ""Алгоритм"")")
  (B "&НаСервере
					Процедура ВыполнитьВБезопасномРежиме(Знач Алгоритм, Знач Параметры = Неопределено)
						Вычислить Алгоритм;
					КонецПроцедуры") = true.
Proof. vm_compute. reflexivity. Qed.
Example t24_a : no_err
  (B "Процедура ПодключитьВнешнююОбработку() 
					Если (1 = 1) Тогда 

					КонецЕсли; 
				КонецПроцедуры") = true.
Proof. vm_compute. reflexivity. Qed.
Example t25_a : no_err
  (B "Процедура ПодключитьВнешнююОбработку() 
					Если в = 1 И а = 1 или у = 3 Тогда
						test = 2+2*2;
						а = 7;
						а = 7.2;
					ИначеЕсли Не 4 = 3 И Не 8 = 2 И 1 <> 3 Тогда;
						а = 5;
					ИначеЕсли Ложь Тогда;
					Иначе
						а = -(1+1);
						а = -s;
						а = -1;
						а = -7.42;
						а = Не истина;
					КонецЕсли;
				КонецПроцедуры") = true.
Proof. vm_compute. reflexivity. Qed.
Example t26_a : no_err
  (B "Процедура ПодключитьВнешнююОбработку() 
					Если в = 1 И а = 1 или у = 3 Тогда

					КонецЕсли

					;
				КонецПроцедуры") = true.
Proof. vm_compute. reflexivity. Qed.
Example t27_a : no_err
  (B "Процедура ПодключитьВнешнююОбработку() 
					Если в = 1 И (а = 1 или у = 3) Тогда

					КонецЕсли

					;
				КонецПроцедуры") = true.
Proof. vm_compute. reflexivity. Qed.
Example t28_a : no_err
  (B "Процедура ПодключитьВнешнююОбработку() 
					Если в = 1 И (а = 1 или у = 3) Тогда
						Если в = 1 или у = 3 Тогда

						КонецЕсли;
					КонецЕсли;
				КонецПроцедуры") = true.
Proof. vm_compute. reflexivity. Qed.
Example t29_a : no_err
  (B "Процедура ПодключитьВнешнююОбработку() 
					Если в = 1 И (а = 1 или у = 3) Тогда
						Если в = 1 или у = 3 Тогда
						Иначе
						КонецЕсли;
					КонецЕсли;
				КонецПроцедуры") = true.
Proof. vm_compute. reflexivity. Qed.
Example t30_a : no_err
  (B "Процедура ПодключитьВнешнююОбработку() 
					Если в = 1 И (а = 1 или у = 3) Тогда
						Если в = 1 или у = 3 Тогда

						ИначеЕсли ввв Тогда

						ИначеЕсли авыав Тогда

						Иначе

						КонецЕсли;
					КонецЕсли;
				КонецПроцедуры") = true.
Proof. vm_compute. reflexivity. Qed.
Example t31_a : no_err
  (B "Процедура ПодключитьВнешнююОбработку() 
					Если Истина Тогда
	
					КонецЕсли // запятой может и не быть
				КонецПроцедуры") = true.
Proof. vm_compute. reflexivity. Qed.
Example t32_a : no_err
  (B "Процедура ПодключитьВнешнююОбработку() 
					Если (Истина или Ложь) Тогда
						а = 0;
					КонецЕсли
				КонецПроцедуры") = true.
Proof. vm_compute. reflexivity. Qed.
Example t33_a : no_err
  (B "Процедура ПодключитьВнешнююОбработку() 
					Если (1 = 1) Тогда 
						f = 0 // запятой может не быть
					КонецЕсли; 
				КонецПроцедуры") = true.
Proof. vm_compute. reflexivity. Qed.
Example t34_a : no_err
  (B "Процедура ПодключитьВнешнююОбработку() 
					Если в = 1 И (а = 1 или у = 3) Тогда
						Если в = 1 или у = 3 Тогда

						ИначеЕсли ввв Тогда

						ИначеЕсли авыав Тогда

						КонецЕсли;
					КонецЕсли;
				КонецПроцедуры") = true.
Proof. vm_compute. reflexivity. Qed.
Example t35_a : no_err
  (B "Процедура ПодключитьВнешнююОбработку() 
					Если в = 1 И (а = 1 или у = 3) Тогда
						Если в = 1 или у = 3 Тогда
							а = 1 + 3 *4;
						ИначеЕсли ввв Тогда

						ИначеЕсли авыав Тогда

						КонецЕсли;
					КонецЕсли;
				КонецПроцедуры") = true.
Proof. vm_compute. reflexivity. Qed.
Example t36_a : no_err
  (B "Процедура ПодключитьВнешнююОбработку(Ссылка) 
						Если ВерсияПлатформыЧислом < 80303641 Тогда
							ВызватьИсключение НСтр(""ru = 'Для работы обработки требуется """"1С:Предприятие"""" версии 8.3.3.641 или страше.';sys= ''"", ""ru"");
						КонецЕсли;
					КонецПроцедуры") = true.
Proof. vm_compute. reflexivity. Qed.
Example t37_a : err_is (B "syntax error. line: 5, column: 7 (unexpected literal: ""b"")")
  (B "Процедура ПодключитьВнешнююОбработку() 
					Если в = 1 И (а = 1 или у = 3) Тогда
						Если в = 1 или у = 3 Тогда
							а = 1 + 3 * 4
							b = 1
						ИначеЕсли ввв Тогда

						ИначеЕсли авыав Тогда

						КонецЕсли;
					КонецЕсли;
				КонецПроцедуры") = true.
Proof. vm_compute. reflexivity. Qed.
Example t38_a : err_is (B "syntax error. line: 9, column: 6 (unexpected literal: ""КонецЕсли"")")
  (B "Процедура ПодключитьВнешнююОбработку() 
					Если в = 1 И (а = 1 или у = 3) Тогда
						Если в = 1 или у = 3 Тогда

						ИначеЕсли ввв Тогда

						ИначеЕсли авыав 

						КонецЕсли;
					КонецЕсли;
				КонецПроцедуры") = true.
Proof. vm_compute. reflexivity. Qed.
Example t39_a : err_is (B "syntax error. line: 6, column: 4 (unexpected literal: ""КонецПроцедуры"")")
  (B "Процедура ПодключитьВнешнююОбработку() 
					Если в = 1 И (а = 1 или у = 3) Тогда
						Если в = 1 или у = 3 Тогда

					КонецЕсли;
				КонецПроцедуры") = true.
Proof. vm_compute. reflexivity. Qed.
Example t40_a : err_is (B "syntax error. line: 2, column: 11 (unexpected literal: ""Тогда"")")
  (B "Процедура ПодключитьВнешнююОбработку() 
					Если  Тогда
	
					КонецЕсли;
				КонецПроцедуры") = true.
Proof. vm_compute. reflexivity. Qed.
Example t41_a : err_is (B "syntax error. line: 2, column: 12 (unexpected literal: ""Тогд"")")
  (B "Процедура ПодключитьВнешнююОбработку() 
					Если f Тогд
	
					КонецЕсли;
				КонецПроцедуры") = true.
Proof. vm_compute. reflexivity. Qed.
Example t42_a : err_is (B "syntax error. line: 2, column: 13 (unexpected literal: ""f"")")
  (B "Процедура ПодключитьВнешнююОбработку() 
					Если ав f Тогда
	
					КонецЕсли;
				КонецПроцедуры") = true.
Proof. vm_compute. reflexivity. Qed.
Example t43_a : no_err
  (B "Процедура ПодключитьВнешнююОбработку() 
					Если Не f Тогда

					КонецЕсли;

					Если Не f Тогда
						d = 0;
					ИначеЕсли 3 = 9 Тогда
						Если тогоСего Тогда
						
						КонецЕсли;
					Иначе
						Если Не f И не 1 = 1 ИЛИ не (а = 2 ИЛИ Истина) Тогда
						
						КонецЕсли;
					КонецЕсли;
				КонецПроцедуры") = true.
Proof. vm_compute. reflexivity. Qed.
Example t44_a : no_err
  (B "Функция Команда1НаСервере()

				Если Не ШаблонТекстаОшибки = """" Тогда

				КонеЦесли;

			 КонецФункции") = true.
Proof. vm_compute. reflexivity. Qed.
Example t44_b : prints (Conf 0 true) trim (B "Функция Команда1НаСервере() Если Не (ШаблонТекстаОшибки = """") Тогда КонецЕсли;КонецФункции")
  (B "Функция Команда1НаСервере()

				Если Не ШаблонТекстаОшибки = """" Тогда

				КонеЦесли;

			 КонецФункции") = true.
Proof. vm_compute. reflexivity. Qed.
Example t45_a : no_err
  (B "Процедура ПодключитьВнешнююОбработку() 
					Для Каждого ИзмененныйОбъект Из ОбъектыНазначения Цикл
						Тип = ТипЗнч(ИзмененныйОбъект);
						Если ТипыИзмененныхОбъектов  = Неопределено Тогда
							ТипыИзмененныхОбъектов = 0;
						КонецЕсли;
					КонецЦикла;

				КонецПроцедуры") = true.
Proof. vm_compute. reflexivity. Qed.
Example t46_a : no_err
  (B "Процедура ПодключитьВнешнююОбработку() 
					Для а = 0 По 100 Цикл
						Тип = ТипЗнч(ИзмененныйОбъект);
						Если ТипыИзмененныхОбъектов  = Неопределено Тогда
							ТипыИзмененныхОбъектов = 0;
						КонецЕсли;
					КонецЦикла;

				КонецПроцедуры") = true.
Proof. vm_compute. reflexivity. Qed.
Example t47_a : no_err
  (B "Процедура ПодключитьВнешнююОбработку() 
					Для а = 0 По 100 Цикл
						Тип = ТипЗнч(ИзмененныйОбъект);
   						Продолжить;

						Если ТипыИзмененныхОбъектов  = Неопределено Тогда
							Продолжить;
						Иначе
							Прервать;
						КонецЕсли;
					КонецЦикла;
				КонецПроцедуры") = true.
Proof. vm_compute. reflexivity. Qed.
Example t48_a : no_err
  (B "Процедура ПодключитьВнешнююОбработку() 
					Для а = 0 По 100 Цикл            
						Для а = 0 По 100 Цикл
							Если Истина Тогда
								Прервать;
							КонецЕсли;
						КонецЦикла;
						
						Если ТипыИзмененныхОбъектов  = Неопределено Тогда
							Продолжить;
						Иначе
							Прервать;
						КонецЕсли;
					КонецЦикла; 
					
					Если ТипыИзмененныхОбъектов  = Неопределено Тогда       
						Для а = 0 По 100 Цикл
							Если Истина Тогда
								Прервать;
							КонецЕсли;
						КонецЦикла;
					КонецЕсли;
				КонецПроцедуры") = true.
Proof. vm_compute. reflexivity. Qed.
Example t49_a : no_err
  (B "Процедура ПодключитьВнешнююОбработку()
					Для Каждого КлючЗначение Из Новый Структура(СписокКолонок) Цикл
						
					КонецЦикла;
					Для Каждого КлючЗначение Из (Новый Структура(СписокКолонок2)) Цикл
						
					КонецЦикла;
				КонецПроцедуры") = true.
Proof. vm_compute. reflexivity. Qed.
Example t49_b : prints (Conf 0 false) delete_empty (B "Процедура ПодключитьВнешнююОбработку() 
Для Каждого КлючЗначение Из Новый Структура(СписокКолонок) Цикл 
КонецЦикла;
Для Каждого КлючЗначение Из Новый Структура(СписокКолонок2) Цикл 
КонецЦикла;
КонецПроцедуры")
  (B "Процедура ПодключитьВнешнююОбработку()
					Для Каждого КлючЗначение Из Новый Структура(СписокКолонок) Цикл
						
					КонецЦикла;
					Для Каждого КлючЗначение Из (Новый Структура(СписокКолонок2)) Цикл
						
					КонецЦикла;
				КонецПроцедуры") = true.
Proof. vm_compute. reflexivity. Qed.
Example t50_a : err_is (B "operator ""Продолжить"" can only be used inside a loop. line: 23, column: 6 (unexpected literal: ""Продолжить"")")
  (B "Процедура ПодключитьВнешнююОбработку() 
					Для а = 0 По 100 Цикл            
						Для а = 0 По 100 Цикл
							Если Истина Тогда
								Прервать;
							КонецЕсли;
						КонецЦикла;
						
						Если ТипыИзмененныхОбъектов  = Неопределено Тогда
							Продолжить;
						Иначе
							Прервать;
						КонецЕсли;
					КонецЦикла; 
					
					Если ТипыИзмененныхОбъектов  = Неопределено Тогда       
						Для а = 0 По 100 Цикл
							Если Истина Тогда
								Прервать;
							КонецЕсли;
						КонецЦикла;

						Продолжить; // вне цикла нельзя
					КонецЕсли;
				КонецПроцедуры") = true.
Proof. vm_compute. reflexivity. Qed.
Example t51_a : err_is (B "operator ""Прервать"" can only be used inside a loop. line: 4, column: 7 (unexpected literal: ""Прервать"")")
  (B "Функция ПодключитьВнешнююОбработку() 
					Если 1 = 1 Тогда
							f = 1+1;
							Прервать; // вне цикла нельзя
					КонецЕсли;

					Для Каждого ИзмененныйОбъект Из ОбъектыНазначения Цикл
						Если 1 = 1 Тогда
							f = 1+1;
							Прервать;
						КонецЕсли;
					КонецЦикла;
				КонецФункции") = true.
Proof. vm_compute. reflexivity. Qed.
Example t52_a : err_is (B "operator ""Прервать"" can only be used inside a loop. line: 4, column: 7 (unexpected literal: ""Прервать"")")
  (B "Функция ПодключитьВнешнююОбработку() 
					Если 1 = 1 Тогда
							f = 1+1;
							Прервать;
					КонецЕсли;
				КонецФункции") = true.
Proof. vm_compute. reflexivity. Qed.
Example t53_a : err_is (B "operator ""Прервать"" can only be used inside a loop. line: 12, column: 7 (unexpected literal: ""Прервать"")")
  (B "Функция ПодключитьВнешнююОбработку() 
					Для Каждого ИзмененныйОбъект Из ОбъектыНазначения Цикл
						Если 1 = 1 Тогда
							f = 1+1;
							Прервать;
						КонецЕсли;
						продолжить;
					КонецЦикла;

					Если 1 = 1 Тогда
							f = 1+1;
							Прервать;
					КонецЕсли;
				КонецФункции") = true.
Proof. vm_compute. reflexivity. Qed.
Example t54_a : err_is (B "operator ""Продолжить"" can only be used inside a loop. line: 2, column: 5 (unexpected literal: ""Продолжить"")")
  (B "Процедура ПодключитьВнешнююОбработку() 
					Продолжить; // вне цикла нельзя
					Для а = 0 По 100 Цикл
						Тип = ТипЗнч(ИзмененныйОбъект);
						Если ТипыИзмененныхОбъектов  = Неопределено Тогда
							Продолжить;
						Иначе
							Прервать;
						КонецЕсли;
					КонецЦикла;

				КонецПроцедуры") = true.
Proof. vm_compute. reflexivity. Qed.
Example t55_a : err_is (B "operator ""Прервать"" can only be used inside a loop. line: 2, column: 5 (unexpected literal: ""Прервать"")")
  (B "Процедура ПодключитьВнешнююОбработку() 
					Прервать; // вне цикла нельзя
					Для а = 0 По 100 Цикл
						Тип = ТипЗнч(ИзмененныйОбъект);
						Если ТипыИзмененныхОбъектов  = Неопределено Тогда
							Продолжить;
						Иначе
							Прервать;
						КонецЕсли;
					КонецЦикла;

				КонецПроцедуры") = true.
Proof. vm_compute. reflexivity. Qed.
Example t56_a : err_is (B "syntax error. line: 2, column: 19 (unexpected literal: ""Цикл"")")
  (B "Процедура ПодключитьВнешнююОбработку() 
					Для а = 0 По  Цикл
						Тип = ТипЗнч(ИзмененныйОбъект);
						Если ТипыИзмененныхОбъектов  = Неопределено Тогда
							ТипыИзмененныхОбъектов = 0;
						КонецЕсли;
					КонецЦикла;

				КонецПроцедуры") = true.
Proof. vm_compute. reflexivity. Qed.
Example t57_a : err_is (B "syntax error. line: 2, column: 26 (unexpected literal: ""Из"")")
  (B "Процедура ПодключитьВнешнююОбработку() 
					Для ИзмененныйОбъект Из ОбъектыНазначения Цикл
						Тип = ТипЗнч(ИзмененныйОбъект);
						Если ТипыИзмененныхОбъектов  = Неопределено Тогда
							ТипыИзмененныхОбъектов = 0;
						КонецЕсли;
					КонецЦикла;

				КонецПроцедуры") = true.
Proof. vm_compute. reflexivity. Qed.
Example t58_a : no_err
  (B "Процедура rrrr() 
				Для Каждого Стр Из ?(ТекущаяСтраница = Элементы.СтраницаДополнительныеРеквизиты,СписокРеквизитов,СписокРеквизитовОсновныеРеквизиты) Цикл
					Стр.Пометка = Ложь;
				КонецЦикла;
		КонецПроцедуры") = true.
Proof. vm_compute. reflexivity. Qed.
Example t58_b : same_norm (Conf 0 true)
  (B "Процедура rrrr() 
				Для Каждого Стр Из ?(ТекущаяСтраница = Элементы.СтраницаДополнительныеРеквизиты,СписокРеквизитов,СписокРеквизитовОсновныеРеквизиты) Цикл
					Стр.Пометка = Ложь;
				КонецЦикла;
		КонецПроцедуры") = true.
Proof. vm_compute. reflexivity. Qed.
Example t59_a : no_err
  (B "Процедура ПодключитьВнешнююОбработку() 
						Если в = 1 И (а = 1 или у = 3) Тогда
							f = 0;
							ВызватьИсключение ""dsdsd dsds"";							
							f = 0;
							f = 0;
						КонецЕсли;
					КонецПроцедуры") = true.
Proof. vm_compute. reflexivity. Qed.
Example t60_a : err_is (B "operator ""ВызватьИсключение"" without arguments can only be used when handling an exception. line: 4, column: 24 (unexpected literal: "";"")")
  (B "Процедура ПодключитьВнешнююОбработку() 
						Если в = 1 И (а = 1 или у = 3) Тогда
							f = 0;
							ВызватьИсключение; // без параметров нельзя
						КонецЕсли;
					КонецПроцедуры") = true.
Proof. vm_compute. reflexivity. Qed.
Example t61_a : no_err
  (B "Процедура ПодключитьВнешнююОбработку() 
						Попытка 
							а = 1+1;					
						Исключение
							ВызватьИсключение ""fff"";
						КонецПопытки;
					КонецПроцедуры") = true.
Proof. vm_compute. reflexivity. Qed.
Example t62_a : no_err
  (B "Процедура ПодключитьВнешнююОбработку() 
						Попытка 
							Попытка 
								а = 1+1;					
							Исключение
								ВызватьИсключение;
							КонецПопытки;				
						Исключение
							ВызватьИсключение
						КонецПопытки;
					КонецПроцедуры") = true.
Proof. vm_compute. reflexivity. Qed.
Example t63_a : no_err
  (B "Процедура ПодключитьВнешнююОбработку()
						Попытка 
							а = 1+1;
							ВызватьИсключение(""dsdsd dsds"");	  
							f = 0;
							f = 0		
						Исключение
							а = 1+1;
							а = 1+1;
							ВызватьИсключение;  // в блоке Исключение можно вызывать без параметров
							а = 1+1;
							
							Если истина Тогда
								ВызватьИсключение;  // в блоке Исключение можно вызывать без параметров
							КонецЕсли
						КонецПопытки;
					КонецПроцедуры") = true.
Proof. vm_compute. reflexivity. Qed.
Example t64_a : no_err
  (B "Процедура ПодключитьВнешнююОбработку() 
						Попытка 
							а = 1+1;
							Если в = 1 И (а = 1 или у = 3) Тогда
								ВызватьИсключение ""SDSDSD"";
							КонецЕсли;
						Исключение
							а = 1+1;
							ВызватьИсключение ""dsd"";
							а = 1+1;
						КонецПопытки;
					КонецПроцедуры") = true.
Proof. vm_compute. reflexivity. Qed.
Example t65_a : err_is (B "operator ""ВызватьИсключение"" without arguments can only be used when handling an exception. line: 9, column: 25 (unexpected literal: "";"")")
  (B "Процедура ПодключитьВнешнююОбработку() 
						Попытка 
							Попытка 
								а = 1+1;					
							Исключение
								ВызватьИсключение;
							КонецПопытки;		

							ВызватьИсключение ;
						Исключение
							ВызватьИсключение
						КонецПопытки;
					КонецПроцедуры") = true.
Proof. vm_compute. reflexivity. Qed.
Example t66_a : err_contains (B "without arguments can only be used when handling an exception")
  (B "Процедура ПодключитьВнешнююОбработку() 
						Попытка 
							Попытка 
								а = 1+1;					
							Исключение
								ВызватьИсключение;
							КонецПопытки;
						Исключение
							ВызватьИсключение
						КонецПопытки;

						ВызватьИсключение 
					КонецПроцедуры") = true.
Proof. vm_compute. reflexivity. Qed.
Example t67_a : no_err
  (B "Функция Команда1НаСервере()

					ВызватьИсключение(НСтр(""ru = 'Недостаточно прав на использование сертификата.'""),
						КатегорияОшибки.НарушениеПравДоступа);

			 КонецФункции") = true.
Proof. vm_compute. reflexivity. Qed.
Example t67_b : prints (Conf 0 true) trim (B "Функция Команда1НаСервере() ВызватьИсключение(НСтр(""ru = 'Недостаточно прав на использование сертификата.'""), КатегорияОшибки.НарушениеПравДоступа);КонецФункции")
  (B "Функция Команда1НаСервере()

					ВызватьИсключение(НСтр(""ru = 'Недостаточно прав на использование сертификата.'""),
						КатегорияОшибки.НарушениеПравДоступа);

			 КонецФункции") = true.
Proof. vm_compute. reflexivity. Qed.
Example t68_a : no_err
  (B "Процедура ПодключитьВнешнююОбработку() 
					а = ТипыИзмененныхОбъектов.Найти(Тип)
				КонецПроцедуры") = true.
Proof. vm_compute. reflexivity. Qed.
Example t69_a : no_err
  (B "Процедура ПодключитьВнешнююОбработку() 
					а = ТипыИзмененныхОбъектов.Test.Найти(Тип)
				КонецПроцедуры") = true.
Proof. vm_compute. reflexivity. Qed.
Example t70_a : no_err
  (B "Процедура ПодключитьВнешнююОбработку() 
					а = ТипыИзмененныхОбъектов(Тип);
				КонецПроцедуры") = true.
Proof. vm_compute. reflexivity. Qed.
Example t71_a : err_is (B "syntax error. line: 2, column: 32 (unexpected literal: ""."")")
  (B "Процедура ПодключитьВнешнююОбработку() 
					а = ТипыИзмененныхОбъектов..Найти(Тип)
				КонецПроцедуры") = true.
Proof. vm_compute. reflexivity. Qed.
Example t72_a : no_err
  (B "&НасервереБезКонтекста
					Функция ПодключитьВнешнююОбработку(Ссылка) 
						f = 1 + gggg - (fd +1 / 3);
					КонецФункции") = true.
Proof. vm_compute. reflexivity. Qed.
Example t73_a : no_err
  (B "&НасервереБезКонтекста
					Функция ПодключитьВнешнююОбработку(Ссылка) 
						f = парапапапам; 
					КонецФункции") = true.
Proof. vm_compute. reflexivity. Qed.
Example t73_b : prints (Conf 0 true) trim (B "&НасервереБезКонтекста
Функция ПодключитьВнешнююОбработку(Ссылка) f = парапапапам;КонецФункции")
  (B "&НасервереБезКонтекста
					Функция ПодключитьВнешнююОбработку(Ссылка) 
						f = парапапапам; 
					КонецФункции") = true.
Proof. vm_compute. reflexivity. Qed.
Example t74_a : no_err
  (B "&НасервереБезКонтекста
					Функция ПодключитьВнешнююОбработку(Ссылка) 
						f = 221;
						возврат 2+2;
					КонецФункции") = true.
Proof. vm_compute. reflexivity. Qed.
Example t74_b : prints (Conf 0 true) trim (B "&НасервереБезКонтекста
Функция ПодключитьВнешнююОбработку(Ссылка) f = 221;Возврат 2 + 2;КонецФункции")
  (B "&НасервереБезКонтекста
					Функция ПодключитьВнешнююОбработку(Ссылка) 
						f = 221;
						возврат 2+2;
					КонецФункции") = true.
Proof. vm_compute. reflexivity. Qed.
Example t75_a : no_err
  (B "&НасервереБезКонтекста
					Функция ПодключитьВнешнююОбработку(Ссылка) 
						f = ""вававава авава"";
					КонецФункции") = true.
Proof. vm_compute. reflexivity. Qed.
Example t75_b : prints (Conf 0 true) trim (B "&НасервереБезКонтекста
Функция ПодключитьВнешнююОбработку(Ссылка) f = ""вававава авава"";КонецФункции")
  (B "&НасервереБезКонтекста
					Функция ПодключитьВнешнююОбработку(Ссылка) 
						f = ""вававава авава"";
					КонецФункции") = true.
Proof. vm_compute. reflexivity. Qed.
Example t76_a : no_err
  (B "&НасервереБезКонтекста
					Функция ПодключитьВнешнююОбработку(Ссылка) 
						f = Истина;
					КонецФункции") = true.
Proof. vm_compute. reflexivity. Qed.
Example t76_b : prints (Conf 0 true) trim (B "&НасервереБезКонтекста
Функция ПодключитьВнешнююОбработку(Ссылка) f = Истина;КонецФункции")
  (B "&НасервереБезКонтекста
					Функция ПодключитьВнешнююОбработку(Ссылка) 
						f = Истина;
					КонецФункции") = true.
Proof. vm_compute. reflexivity. Qed.
Example t77_a : no_err
  (B "&НасервереБезКонтекста
					Функция ПодключитьВнешнююОбработку(Ссылка) 
						f = Ложь;
					КонецФункции") = true.
Proof. vm_compute. reflexivity. Qed.
Example t77_b : prints (Conf 0 true) trim (B "&НасервереБезКонтекста
Функция ПодключитьВнешнююОбработку(Ссылка) f = Ложь;КонецФункции")
  (B "&НасервереБезКонтекста
					Функция ПодключитьВнешнююОбработку(Ссылка) 
						f = Ложь;
					КонецФункции") = true.
Proof. vm_compute. reflexivity. Qed.
Example t78_a : err_is (B "syntax error. line: 1, column: 1 (unexpected literal: ""НасервереБез"")")
  (B "&НасервереБез
					Функция ПодключитьВнешнююОбработку(Ссылка) 

					КонецФункции") = true.
Proof. vm_compute. reflexivity. Qed.
Example t79_a : no_err
  (B "Функция ПодключитьВнешнююОбработку(Ссылка, вы, выыыыы) 

					КонецФункции") = true.
Proof. vm_compute. reflexivity. Qed.
Example t80_a : no_err
  (B "Функция ПодключитьВнешнююОбработку(Ссылка, вы, выыыыы) 
						Перем а;
						Перем вы, в;

						Если истина Тогда
							ВызватьИсключение вызов("""");
						ИначеЕсли 1 = 1 Тогда
						ИначеЕсли 2 = 2 Тогда
						Иначе
							б = а;
						КонецЕсли;
					КонецФункции") = true.
Proof. vm_compute. reflexivity. Qed.
Example t81_a : no_err
  (B "Функция ПодключитьВнешнююОбработку(Ссылка, вы, выыыыы) 
						Перем а;
						Перем вы, в;

						Если истина Тогда
							Возврат;
						КонецЕсли;
					КонецФункции") = true.
Proof. vm_compute. reflexivity. Qed.
Example t82_a : no_err
  (B "Функция ПодключитьВнешнююОбработку(Ссылка) Экспорт

					КонецФункции") = true.
Proof. vm_compute. reflexivity. Qed.
Example t83_a : err_is (B "syntax error. line: 3, column: 5 (unexpected literal: ""КонецФунки"")")
  (B "Функция ПодключитьВнешнююОбработку(Ссылка) 

					КонецФунки") = true.
Proof. vm_compute. reflexivity. Qed.
Example t84_a : err_is (B "syntax error. line: 3, column: 5 (unexpected literal: ""КонецПроцедуры"")")
  (B "Функция ПодключитьВнешнююОбработку(Ссылка) 

					КонецПроцедуры") = true.
Proof. vm_compute. reflexivity. Qed.
Example t85_a : no_err
  (B "Функция ПодключитьВнешнююОбработку(Парам1, Парам2 = Неопределено, Знач Парам3 = ""вывыв"", парам4 = 4) 

					КонецФункции") = true.
Proof. vm_compute. reflexivity. Qed.
Example t86_a : no_err
  (B "&НасервереБезКонтекста
					Процедура ПодключитьВнешнююОбработку() 

					КонецПроцедуры") = true.
Proof. vm_compute. reflexivity. Qed.
Example t87_a : err_is (B "syntax error. line: 1, column: 1 (unexpected literal: ""НасервереБез"")")
  (B "&НасервереБез
					Процедура ПодключитьВнешнююОбработку(Ссылка) 

					КонецПроцедуры") = true.
Proof. vm_compute. reflexivity. Qed.
Example t88_a : no_err
  (B "Процедура ПодключитьВнешнююОбработку(Ссылка) Экспорт

					КонецПроцедуры") = true.
Proof. vm_compute. reflexivity. Qed.
Example t89_a : err_is (B "syntax error. line: 3, column: 5 (unexpected literal: ""КонецФункции"")")
  (B "Процедура ПодключитьВнешнююОбработку(Ссылка) 

					КонецФункции") = true.
Proof. vm_compute. reflexivity. Qed.
Example t90_a : no_err
  (B "Процедура ПодключитьВнешнююОбработку(Ссылка) 
						Перем а;
						Перем вы, в;

						Если истина Тогда
							ВызватьИсключение """";
						КонецЕсли;
					КонецПроцедуры") = true.
Proof. vm_compute. reflexivity. Qed.
Example t91_a : err_contains (B "variable has already been defined")
  (B "Процедура ПодключитьВнешнююОбработку(Ссылка) 
						Перем а;
						Перем а, вы, в;

						Если истина Тогда
							ВызватьИсключение """";
						КонецЕсли;
					КонецПроцедуры") = true.
Proof. vm_compute. reflexivity. Qed.
Example t92_a : no_err
  (B "Процедура ПодключитьВнешнююОбработку(Ссылка) 
						Перем а;
						Перем вы, в;

						Если истина Тогда
							возврат;
						КонецЕсли;
					КонецПроцедуры") = true.
Proof. vm_compute. reflexivity. Qed.
Example t93_a : err_contains (B "procedure cannot return a value")
  (B "Процедура ПодключитьВнешнююОбработку(Ссылка) 
						Перем а;
						Перем а, вы, в;

						Если истина Тогда
							возврат """";
						КонецЕсли;
					КонецПроцедуры") = true.
Proof. vm_compute. reflexivity. Qed.
Example t94_a : err_is (B "syntax error. line: 5, column: 6 (unexpected literal: ""Если"")")
  (B "Процедура ПодключитьВнешнююОбработку(Ссылка) 
						Перем а;
						Перем а, вы, в

						Если истина Тогда
							ВызватьИсключение """";
						КонецЕсли;
					КонецПроцедуры") = true.
Proof. vm_compute. reflexivity. Qed.
Example t95_a : err_is (B "syntax error. line: 6, column: 6 (unexpected literal: ""Перем"")")
  (B "Процедура ПодключитьВнешнююОбработку(Ссылка)
						Если истина Тогда
							ВызватьИсключение """";
						КонецЕсли;

						Перем а, вы, в;
					КонецПроцедуры") = true.
Proof. vm_compute. reflexivity. Qed.
Example t96_a : no_err
  (B "#Область ПрограммныйИнтерфейс
// hg
#Область ПрограммныйИнтерфейс
					&НасервереБезКонтекста
					Процедура ПодключитьВнешнююОбработку()
						ТипЗначенияСтрокой = XMLТипЗнч(КлючДанных).ИмяТипа;

					КонецПроцедуры
					#КонецОбласти
#КонецОбласти

					#Область СлужебныеПроцедурыИФункции
					&НасервереБезКонтекста
						Функция ПодключитьВнешнююОбработку() 
							ВызватьИсключение ""Нет соответствия шаблону! "" + СтрокаТекста;

						КонецФункции
					#КонецОбласти") = true.
Proof. vm_compute. reflexivity. Qed.
Example t97_a : no_err
  (B "Процедура ЗагрузитьОбъекты(Задание, Отказ = Ложь) Экспорт
						Перем СоответствиеРеквизитовШапки;
					
						Организация  = Задание.Организация.ВыполнитьМетодСПараметрами(1, ""ав"", авава);
						Организация  = Задание.Организация.ВыполнитьМетодБезПараметров();
						Организация  = Задание.Организация.Код;
 
					КонецПроцедуры") = true.
Proof. vm_compute. reflexivity. Qed.
Example t98_a : no_err
  (B "&Насервере
				Процедура ПодключитьВнешнююОбработку() 
					Возврат
				КонецПроцедуры

				&НаКлиенте
				Функция ОчиститьПараметрыТЖ(парам1 = 1, парам2 = Неопределено, парам3 = -1) Экспорт
					Возврат 100;
				КонецФункции

				Функция ПарамТарам(Знач парам1)
					возврат +1;
				КонецФункции") = true.
Proof. vm_compute. reflexivity. Qed.
Example t98_b : prints (Conf 0 false) delete_empty (B "&Насервере
Процедура ПодключитьВнешнююОбработку() 
Возврат;
КонецПроцедуры 
&НаКлиенте
Функция ОчиститьПараметрыТЖ(парам1 = 1, парам2 = Неопределено, парам3 = -1) Экспорт 
Возврат 100;
КонецФункции 
Функция ПарамТарам(Знач парам1) 
Возврат 1;
КонецФункции")
  (B "&Насервере
				Процедура ПодключитьВнешнююОбработку() 
					Возврат
				КонецПроцедуры

				&НаКлиенте
				Функция ОчиститьПараметрыТЖ(парам1 = 1, парам2 = Неопределено, парам3 = -1) Экспорт
					Возврат 100;
				КонецФункции

				Функция ПарамТарам(Знач парам1)
					возврат +1;
				КонецФункции") = true.
Proof. vm_compute. reflexivity. Qed.
Example t99_a : no_err
  (B "Процедура ПодключитьВнешнююОбработку(Ссылка) ds; КонецПроцедуры") = true.
Proof. vm_compute. reflexivity. Qed.
Example t100_a : no_err
  (B "Процедура ПодключитьВнешнююОбработку(Ссылка) ds = 222; uu = 9; КонецПроцедуры") = true.
Proof. vm_compute. reflexivity. Qed.
Example t101_a : no_err
  (B "Процедура ПодключитьВнешнююОбработку(Ссылка) 
					ds = 222; ds = 222; uu = 9
				КонецПроцедуры") = true.
Proof. vm_compute. reflexivity. Qed.
Example t102_a : no_err
  (B "Процедура ПодключитьВнешнююОбработку(Ссылка) 
					ds = 222



					; uu = 9;
				КонецПроцедуры") = true.
Proof. vm_compute. reflexivity. Qed.
Example t103_a : no_err
  (B "Процедура ПодключитьВнешнююОбработку(Ссылка) 
					ds = 222; 
					uu = 9;
				КонецПроцедуры") = true.
Proof. vm_compute. reflexivity. Qed.
Example t104_a : err_is (B "syntax error. line: 3, column: 5 (unexpected literal: ""uu"")")
  (B "Процедура ПодключитьВнешнююОбработку(Ссылка) 
					ds = 222
					uu = 9;
				КонецПроцедуры") = true.
Proof. vm_compute. reflexivity. Qed.
Example t105_a : no_err
  (B "Процедура ПодключитьВнешнююОбработку(Ссылка) 
					ds = ИспользуемыеНастройки[0].Структура[0].Структура;
					fdfd = СтруктураКонтрагент();
					fdfd = f.СтруктураКонтрагент(gf, ghf);
					СтруктураКонтрагент.Наименование = СтрокаВывода[РезультатВывода.Колонки.Найти(""СтруктураКонтрагентНаименование"").Имя];
					СтрокаСпискаПП[ТекКолонка.Ключ][""РасшифровкаПлатежа""].Добавить(ВременнаяСтруктура);
				КонецПроцедуры") = true.
Proof. vm_compute. reflexivity. Qed.
Example t106_a : err_some
  (B "Процедура ПодключитьВнешнююОбработку(Ссылка) 
					ds = ИспользуемыеНастройки[0].Структура[0].Структура;
					fdfd = СтруктураКонтрагент();
					fdfd = f.СтруктураКонтрагент(gf, ghf);
					СтруктураКонтрагент.Наименование = СтрокаВывода[РезультатВывода.Колонки.Найти(""СтруктураКонтрагентНаименование.Имя];
				КонецПроцедуры") = true.
Proof. vm_compute. reflexivity. Qed.
Example t107_a : no_err
  (B "Процедура ПодключитьВнешнююОбработку(Ссылка) 
					Контекст = Новый Структура;
					Контекст = Новый Структура();
					Контекст = Новый Структура(""выыыы"");
					Контекст = Новый Структура(какойтофункшин());
					Контекст = Новый Структура(""какойтоимя"", чето);
					Запрос = Новый Запрос(ТекстЗапросаЗадание());
					Оповещение = Новый ОписаниеОповещения(,, Контекст,
													""ОткрытьНавигационнуюСсылкуПриОбработкеОшибки"", ОбщегоНазначенияСлужебныйКлиент);
				КонецПроцедуры") = true.
Proof. vm_compute. reflexivity. Qed.
Example t108_a : err_is (B "syntax error. line: 2, column: 32 (unexpected literal: "";"")")
  (B "Процедура ПодключитьВнешнююОбработку(Ссылка) 
					Контекст = Новый Структура(;
				КонецПроцедуры") = true.
Proof. vm_compute. reflexivity. Qed.
Example t109_a : err_some
  (B "Процедура ПодключитьВнешнююОбработку(Ссылка) 
					Контекст = Новый Структура(""выыыы);
				КонецПроцедуры") = true.
Proof. vm_compute. reflexivity. Qed.
Example t110_a : no_err
  (B "

Процедура ОткрытьНавигационнуюСсылку(НавигационнаяСсылка, Знач Оповещение = Неопределено) Экспорт

	ПустаяДата = '00010101000000';
	ПустаяДата = '20131231235959';

	КлючЗаписиРегистра = Новый(""РегистрСведенийКлючЗаписи.СостоянияОригиналовПервичныхДокументов"", ПараметрыМассив);
	МассаДМ = ВыборкаЕдИзм.МассаДМ/Количество;
	
     стр = новый Структура(""Цикл"", 1);
     стр.Цикл = 0; 

Если (КодСимвола < 1040) ИЛИ (((КодСимвола > 1103) И (КодыДопустимыхСимволов.Найти(КодСимвола) = Неопределено)) И Не ((Не УчитыватьРазделителиСлов И ЭтоРазделительСлов(КодСимвола)))) Тогда 
        Возврат;
    КонецЕсли;

перейти ~метка;

МассивСтроки.Добавить(Новый ФорматированнаяСтрока(ЧастьСтроки.Значение, Новый Шрифт(,,Истина)));

	Позиция = Найти(Строка, Разделитель);
	Пока Позиция > 0 Цикл
		Подстрока = Лев(Строка, Позиция - 1);
		Если Не ПропускатьПустыеСтроки Или Не ПустаяСтрока(Подстрока) Тогда
			Если СокращатьНепечатаемыеСимволы Тогда
				Результат.Добавить(СокрЛП(Подстрока));
			Иначе
				Результат.Добавить(Подстрока);
			КонецЕсли;
		КонецЕсли;
		Строка = Сред(Строка, Позиция + СтрДлина(Разделитель));
		Позиция = Найти(Строка, Разделитель);
	КонецЦикла;

~метка:



	вы = ввывыв[0];
	СтрокаСпискаПП[ТекКолонка.Ключ].Вставить(ТекКолонкаЗначение.Ключ, УровеньГруппировки3[ПрефиксПоля + СтрЗаменить(ТекКолонкаЗначение.Значение, ""."", """")]);

	Контекст = Новый Структура();
	Контекст.Вставить(""НавигационнаяСсылка"", НавигационнаяСсылка);
	Контекст.Вставить(""Оповещение"", Оповещение);
	
	ОписаниеОшибки = СтроковыеФункцииКлиентСервер.ПодставитьПараметрыВСтроку(
			НСтр(""ru = 'Не удалось перейти по ссылке """"%1"""" по причине: 
			           |Неверно задана навигационная ссылка.'""),
			НавигационнаяСсылка);
	
	Если Не ОбщегоНазначенияСлужебныйКлиент.ЭтоДопустимаяСсылка(НавигационнаяСсылка) Тогда 
		ОбщегоНазначенияСлужебныйКлиент.ОткрытьНавигационнуюСсылкуОповеститьОбОшибке(ОписаниеОшибки, Контекст);
		Возврат;
	КонецЕсли;
	
	Если ОбщегоНазначенияСлужебныйКлиент.ЭтоВебСсылка(НавигационнаяСсылка)
		Или ОбщегоНазначенияСлужебныйКлиент.ЭтоНавигационнаяСсылка(НавигационнаяСсылка) Тогда 
		
		Попытка
			а = а /0;
		Исключение
			ОбщегоНазначенияСлужебныйКлиент.ОткрытьНавигационнуюСсылкуОповеститьОбОшибке(ОписаниеОшибки, Контекст);
			Возврат;
		КонецПопытки;
		
		Если Оповещение <> Неопределено Тогда 
			ПриложениеЗапущено = Истина;
			ВыполнитьОбработкуОповещения(Оповещение, ПриложениеЗапущено);
		КонецЕсли;
		
		Возврат;
	КонецЕсли;
	
	Если ОбщегоНазначенияСлужебныйКлиент.ЭтоСсылкаНаСправку(НавигационнаяСсылка) Тогда 
		ОткрытьСправку(НавигационнаяСсылка);
		Возврат;
	КонецЕсли;
КонецПроцедуры

Если Оповещение <> Неопределено Тогда 
			ПриложениеЗапущено = Истина;
			ВыполнитьОбработкуОповещения(Оповещение, ПриложениеЗапущено);
		КонецЕсли;") = true.
Proof. vm_compute. reflexivity. Qed.
Example t110_b : same_hash (Conf 4 false)
  (B "

Процедура ОткрытьНавигационнуюСсылку(НавигационнаяСсылка, Знач Оповещение = Неопределено) Экспорт

	ПустаяДата = '00010101000000';
	ПустаяДата = '20131231235959';

	КлючЗаписиРегистра = Новый(""РегистрСведенийКлючЗаписи.СостоянияОригиналовПервичныхДокументов"", ПараметрыМассив);
	МассаДМ = ВыборкаЕдИзм.МассаДМ/Количество;
	
     стр = новый Структура(""Цикл"", 1);
     стр.Цикл = 0; 

Если (КодСимвола < 1040) ИЛИ (((КодСимвола > 1103) И (КодыДопустимыхСимволов.Найти(КодСимвола) = Неопределено)) И Не ((Не УчитыватьРазделителиСлов И ЭтоРазделительСлов(КодСимвола)))) Тогда 
        Возврат;
    КонецЕсли;

перейти ~метка;

МассивСтроки.Добавить(Новый ФорматированнаяСтрока(ЧастьСтроки.Значение, Новый Шрифт(,,Истина)));

	Позиция = Найти(Строка, Разделитель);
	Пока Позиция > 0 Цикл
		Подстрока = Лев(Строка, Позиция - 1);
		Если Не ПропускатьПустыеСтроки Или Не ПустаяСтрока(Подстрока) Тогда
			Если СокращатьНепечатаемыеСимволы Тогда
				Результат.Добавить(СокрЛП(Подстрока));
			Иначе
				Результат.Добавить(Подстрока);
			КонецЕсли;
		КонецЕсли;
		Строка = Сред(Строка, Позиция + СтрДлина(Разделитель));
		Позиция = Найти(Строка, Разделитель);
	КонецЦикла;

~метка:



	вы = ввывыв[0];
	СтрокаСпискаПП[ТекКолонка.Ключ].Вставить(ТекКолонкаЗначение.Ключ, УровеньГруппировки3[ПрефиксПоля + СтрЗаменить(ТекКолонкаЗначение.Значение, ""."", """")]);

	Контекст = Новый Структура();
	Контекст.Вставить(""НавигационнаяСсылка"", НавигационнаяСсылка);
	Контекст.Вставить(""Оповещение"", Оповещение);
	
	ОписаниеОшибки = СтроковыеФункцииКлиентСервер.ПодставитьПараметрыВСтроку(
			НСтр(""ru = 'Не удалось перейти по ссылке """"%1"""" по причине: 
			           |Неверно задана навигационная ссылка.'""),
			НавигационнаяСсылка);
	
	Если Не ОбщегоНазначенияСлужебныйКлиент.ЭтоДопустимаяСсылка(НавигационнаяСсылка) Тогда 
		ОбщегоНазначенияСлужебныйКлиент.ОткрытьНавигационнуюСсылкуОповеститьОбОшибке(ОписаниеОшибки, Контекст);
		Возврат;
	КонецЕсли;
	
	Если ОбщегоНазначенияСлужебныйКлиент.ЭтоВебСсылка(НавигационнаяСсылка)
		Или ОбщегоНазначенияСлужебныйКлиент.ЭтоНавигационнаяСсылка(НавигационнаяСсылка) Тогда 
		
		Попытка
			а = а /0;
		Исключение
			ОбщегоНазначенияСлужебныйКлиент.ОткрытьНавигационнуюСсылкуОповеститьОбОшибке(ОписаниеОшибки, Контекст);
			Возврат;
		КонецПопытки;
		
		Если Оповещение <> Неопределено Тогда 
			ПриложениеЗапущено = Истина;
			ВыполнитьОбработкуОповещения(Оповещение, ПриложениеЗапущено);
		КонецЕсли;
		
		Возврат;
	КонецЕсли;
	
	Если ОбщегоНазначенияСлужебныйКлиент.ЭтоСсылкаНаСправку(НавигационнаяСсылка) Тогда 
		ОткрытьСправку(НавигационнаяСсылка);
		Возврат;
	КонецЕсли;
КонецПроцедуры

Если Оповещение <> Неопределено Тогда 
			ПриложениеЗапущено = Истина;
			ВыполнитьОбработкуОповещения(Оповещение, ПриложениеЗапущено);
		КонецЕсли;") = true.
Proof. vm_compute. reflexivity. Qed.
Example t111_a : no_err
  (B "

") = true.
Proof. vm_compute. reflexivity. Qed.
Example t112_a : no_err
  (B "Процедура ПодключитьВнешнююОбработку(Ссылка) 
					ds = ?(Истина, ?(dd = 3, а = 1, Наименование), СтруктураКонтрагент.Наименование);
				КонецПроцедуры") = true.
Proof. vm_compute. reflexivity. Qed.
Example t113_a : no_err
  (B "Процедура ПодключитьВнешнююОбработку()        
				м = Новый Массив();
				в = м[4];
				
				м = Новый Структура(""ав"", уцуцу);
				в = м[""вывыв""];
			КонецПроцедуры") = true.
Proof. vm_compute. reflexivity. Qed.
Example t114_a : no_err
  (B "&НаКлиенте
					Процедура Проба() 
						Если в = 1 или у = 3 И 0 <> 3 и не гоого и Истина и ав = неопределено Тогда
							а=1 + 3 *4;
						а=1 + 3 *4;
							fgd = 1
						ИначеЕсли ввв Тогда Если в = 1 Тогда
							а = -(1 + 3 *4);
Если в = 1 Тогда
							а = 1 + 3 *4;
							КонецЕсли
							КонецЕсли
						ИначеЕсли авыав Тогда

						Иначе						
							ваывы = 1 + 3 *4;
ваывы = 1 + 3 *4
						КонецЕсли;

						а = 1 + 3 *4
					КонецПроцедуры

					Функция авава(пар1, пар2) экспорт
						Для Каждого ИзмененныйОбъект Из ОбъектыНазначения Цикл
							Тип = ТипЗнч(ИзмененныйОбъект);
							Если ТипыИзмененныхОбъектов = Неопределено Тогда
								ТипыИзмененныхОбъектов.Добавить(Тип);
							КонецЕсли;

Для Каждого ИзмененныйОбъект Из ОбъектыНазначения Цикл
        Тип = ТипЗнч(ИзмененныйОбъект);
        Если ТипыИзмененныхОбъектов = Неопределено Тогда
            ТипыИзмененныхОбъектов.Добавить(Тип);
        Иначе
        КонецЕсли;
    КонецЦикла;

						КонецЦикла;

						Для а = 0 По 100 Цикл
							Тип = ТипЗнч(ИзмененныйОбъект);
							Если ТипыИзмененныхОбъектов  = Неопределено Тогда
								Продолжить; Иначе 	Прервать;
							КонецЕсли;
						КонецЦикла;
					Конецфункции
					
					Процедура Опрпп(пар1, Знач пар2 = 2.2, пар1 = Неопределено, Пар3 = ""авава"") 

						Попытка 
							а = 1+1;
ВызватьИсключение(ававава());
						Исключение
							ВызватьИсключение("""");
ВызватьИсключение ;
						КонецПопытки;
					Конецпроцедуры") = true.
Proof. vm_compute. reflexivity. Qed.
Example t115_a : no_err
  (B "А = d = 2 = d ИЛИ в = 3;
			Если 1 = 1 = 2 = 3 Тогда
			   ПриКомпоновкеРезультата();
			КонецЕсли") = true.
Proof. vm_compute. reflexivity. Qed.
Example t115_b : prints (Conf 4 false) normalize (B "А=((d=2)=d)ИЛИ(в=3);Если((1=1)=2)=3ТогдаПриКомпоновкеРезультата();КонецЕсли;")
  (B "А = d = 2 = d ИЛИ в = 3;
			Если 1 = 1 = 2 = 3 Тогда
			   ПриКомпоновкеРезультата();
			КонецЕсли") = true.
Proof. vm_compute. reflexivity. Qed.
Example t116_a : no_err
  (B "Процедура ОткрытьНавигационнуюСсылку(НавигационнаяСсылка, Знач Оповещение = Неопределено) Экспорт
					Если в = 1 = 5 и не авав ИЛИ ааа Тогда
						в = 1 = 5 = 1 и не авав ИЛИ ааа;
					КонецЕсли;
				КонецПроцедуры") = true.
Proof. vm_compute. reflexivity. Qed.
Example t116_b : prints (Conf 4 false) normalize (B "ПроцедураОткрытьНавигационнуюСсылку(НавигационнаяСсылка,ЗначОповещение=Неопределено)ЭкспортЕсли(((в=1)=5)ИНеавав)ИЛИаааТогдав=(((1=5)=1)ИНеавав)ИЛИааа;КонецЕсли;КонецПроцедуры")
  (B "Процедура ОткрытьНавигационнуюСсылку(НавигационнаяСсылка, Знач Оповещение = Неопределено) Экспорт
					Если в = 1 = 5 и не авав ИЛИ ааа Тогда
						в = 1 = 5 = 1 и не авав ИЛИ ааа;
					КонецЕсли;
				КонецПроцедуры") = true.
Proof. vm_compute. reflexivity. Qed.
Example t117_a : no_err
  (B "Процедура f()
					тест.куку.ууу = 1 = 5 = 1 и не авав ИЛИ ааа;
					тест[333] = 1 = 5 = 1 = 4 = fd;
				КонецПроцедуры") = true.
Proof. vm_compute. reflexivity. Qed.
Example t117_b : prints (Conf 0 true) trim (B "Процедура f() тест.куку.ууу = (((1 = 5) = 1) И Не авав) ИЛИ ааа;тест[333] = (((1 = 5) = 1) = 4) = fd;КонецПроцедуры")
  (B "Процедура f()
					тест.куку.ууу = 1 = 5 = 1 и не авав ИЛИ ааа;
					тест[333] = 1 = 5 = 1 = 4 = fd;
				КонецПроцедуры") = true.
Proof. vm_compute. reflexivity. Qed.
Example t118_a : no_err
  (B "Процедура f()
					ds = r / (КонВремя - НачВремя);
					fd = Формат(r / (КонВремя - НачВремя), ""ЧН=; ЧГ="");
				КонецПроцедуры") = true.
Proof. vm_compute. reflexivity. Qed.
Example t118_b : prints (Conf 0 true) trim (B "Процедура f() ds = r / (КонВремя - НачВремя);fd = Формат(r / (КонВремя - НачВремя), ""ЧН=; ЧГ="");КонецПроцедуры")
  (B "Процедура f()
					ds = r / (КонВремя - НачВремя);
					fd = Формат(r / (КонВремя - НачВремя), ""ЧН=; ЧГ="");
				КонецПроцедуры") = true.
Proof. vm_compute. reflexivity. Qed.
